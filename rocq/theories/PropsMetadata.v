(** C71: metadata is read back as it was set.  False of the code when values with
    different mimetypes wait together, and for the dict of all metadata when
    metadata waits; true for the histories of C65. *)
From Coq Require Import Strings.String.
From Coq Require Import List ZArith Bool Lia Permutation Strings.Byte.
From Coq Require Import ZifyBool ZifyNat.
From Verif Require Import Base BaseProofs Utf8 Utf8Proofs Infobyte Header HeaderSpec HeaderProofs MimeTypeList MimeTypeListSpec Entry EntrySpec Reader ReaderSpec Decompressors DecompressorsProofs Blob BlobProofs
  PointerList PointerListProofs SpaceAllocator Cluster ClusterSpec ClusterProofs ClusterWrapper ClusterWrapperSpec ClusterWrapperProofs Archive ArchiveSpec ArchiveProofs ArchiveFacts ArchiveLaws ArchiveObserve
  ArchiveCluster ArchiveClusterSpec ArchiveClusterProofs CompressionStrategy CompressionStrategySpec CompressionStrategyProofs OperationBuffer OperationBufferSpec OperationBufferProofs EntryObject Flush FlushSpec FlushProofs FlushTailProofs FlushOpenProofs
  FlushHistorySpec FlushHistoryProofs FlushCreateProofs ViewSpec ViewProofs ViewEditProofs ViewStepProofs ViewWaitProofs ViewHistoryProofs Metadata MetadataSpec PropsArchiveCluster PropsCompressionStrategy PropsFlush PropsView PropsMainPage.
Import ListNotations.
Open Scope Z_scope.

Lemma outside_listing : forall s u, outside_X u -> ~ listing s u.
Proof. intros s u O [->|(-> & _)]; apply O; reflexivity. Qed.
Lemma key_outside : forall key, outside_X (key_url key).
Proof. intros key Q. discriminate Q. Qed.

(** The operations that leave the page at [u] alone. *)
Definition spares (u : ustr) (o : vop) : Prop :=
  match o with
  | VAdd it _ _ => item_url it <> u
  | VLink source _ _ => source <> u
  | VEdit v l => v <> u /\ ~ In (SetUrl u) l
  | VContent v _ | VRemove v => v <> u
  | VMain _ => u <> URL_MAINPAGE_REDIRECT
  | VFlush | VReopen _ _ => True
  end.
(** The text of a string of characters. *)
Definition codes (s : String.string) : ustr := map (fun c => Z.of_N (Ascii.N_of_ascii c)) (String.list_ascii_of_string s).
Definition is_picture (key : ustr) : Prop := exists rest, key = codes "Illustration_"%string ++ rest.
Lemma fields_url : forall l x p, fst (set_fields l x p) = x \/ In (SetUrl (fst (set_fields l x p))) l.
Proof.
  unfold set_fields. induction l as [|f l IH]; intros x p; [left; reflexivity|]. cbn [fold_left]. destruct f as [t|v|m|b]; cbn [set_field].
  - destruct (IH x (mkPage t (pg_article p) (pg_body p))) as [Q|Q]; [auto|right; right; exact Q].
  - destruct (IH v (mkPage (pg_title p) (pg_article p && in_C v) (pg_body p))) as [Q|Q]; [right; left; rewrite Q; reflexivity|right; right; exact Q].
  - destruct (IH x (mkPage (pg_title p) (pg_article p) match pg_body p with Data _ d => Data (encoded m) d | Link t => Link t end)) as [Q|Q]; [auto|right; right; exact Q].
  - destruct (IH x (mkPage (pg_title p) b (pg_body p))) as [Q|Q]; [auto|right; right; exact Q].
Qed.
Lemma spared : forall u o V, spares u o -> vstep V o u = V u.
Proof.
  intros u o V S. destruct o as [it d un|src tgt ttl|v l|v d|v|v| |sc sp]; cbn [spares vstep] in *; try (apply vput_other; congruence); try reflexivity.
  - destruct S as (S1 & S2). destruct (V v) as [p|]; [|reflexivity]. pose proof (fields_url l v p) as Q. destruct (set_fields l v p) as [w q]. cbn [fst] in Q. rewrite !vput_other; [reflexivity|congruence|]. intros ->. destruct Q as [Q|Q]; [congruence|contradiction].
  - destruct (V v) as [p|]; [|reflexivity]. apply vput_other. congruence.
Qed.
Lemma all_spared : forall u ops V, Forall (spares u) ops -> vsteps V ops u = V u.
Proof.
  intros u. induction ops as [|o ops IH]; intros V F; [reflexivity|]. inversion F; subst. change (vsteps V (o :: ops)) with (vsteps (vstep V o) ops). rewrite IH by assumption. apply spared. assumption.
Qed.

Section Metadata.
Variable fuel : nat.
Context {D : Type}.
Variable dc : decomp D.
Variable new_decomp : ctype -> res D.
Context {K : Type}.
Variable new_comp : ctype -> res K.
Variable comp : K -> bytes -> res (bytes * K).
Variable flush : K -> res bytes.
Variable depth : nat.
Variable kd : ckind.
Variable Stream : ctype -> bytes -> bytes -> Prop.
Context {H : Type}.
Variable md5 : H.
Variable feed : H -> bytes -> H.
Variable digest : H -> bytes.
Variable truncate : bool.
Variable process_blob : entry -> M zim unit.
Variable rounds : nat.
Notation performv reserve := (perform_vop fuel dc new_decomp new_comp comp flush depth kd md5 feed digest reserve truncate process_blob rounds).
Notation runs reserve := (vruns fuel dc new_decomp new_comp comp flush depth kd Stream md5 feed digest reserve truncate process_blob rounds).
Notation opens := (open_zim fuel dc new_decomp new_comp comp flush depth kd).
Notation flushesh reserve := (flushes fuel dc new_decomp new_comp comp flush depth kd md5 feed digest reserve truncate process_blob rounds).
Notation fsuff reserve := (flush_suffices fuel dc new_decomp new_comp comp flush depth kd Stream md5 feed digest reserve truncate process_blob rounds).
Notation begins := (begins fuel dc new_decomp new_comp comp flush depth kd Stream).
Notation shows := (shows fuel dc new_decomp kd).
Notation reads := (read_metadata fuel dc new_decomp kd).
Notation gets reserve := (get_metadata fuel dc new_decomp new_comp comp flush depth kd md5 feed digest reserve truncate process_blob rounds).
Notation gets_dict reserve := (get_metadata_dict fuel dc new_decomp new_comp comp flush depth kd md5 feed digest reserve truncate process_blob rounds).
Notation sets := (set_metadata fuel new_comp comp flush depth).

Hypothesis CD : codec_ok dc new_decomp new_comp comp flush Stream.
Hypothesis HO : hash_ok feed digest.

(** *** Reading *)
Lemma leads_read : forall A L V, consistent (fa_zim A) L -> shows A V -> forall n u d, leads V n u d -> forall k, (n <= k)%nat ->
  exists e0 e c b, get_entry_by_full_url (fa_zim A) u = Ok e0 /\ resolve k (fa_zim A) e0 = Ok e /\ e_kind e = Content c b /\ read_blob_of fuel dc new_decomp kd (fa_arch A) c b = Ok d.
Proof.
  intros A L V C SH.
  assert (KC : forall u e, get_entry_by_full_url (fa_zim A) u = Ok e -> kind_consistent e).
  { intros u e G. apply (lookup_iff _ _ _ _ C) in G as (G & _). pose proof C as [(cells & <- & CO) _ _ _ _]. apply in_map_iff in G as (c & <- & Hc). pose proof (co_stored _ _ CO) as ST. rewrite Forall_forall in ST. destruct (ST c Hc) as (_ & _ & Q & _). exact Q. }
  induction 1 as [n u p m d HV OX HB|n u p v d HV OX HB LD IH]; intros k HK; (destruct k as [|k]; [lia|]); specialize (SH u (outside_listing _ _ OX)); rewrite HV in SH; destruct SH as (e & us & G & _ & _ & _ & BD); rewrite HB in BD.
  - destruct BD as (c & b & EK & _ & RD & _). exists e, e, c, b. split; [exact G|]. split; [|auto]. cbn [resolve]. pose proof (KC u e G) as Q. unfold kind_consistent in Q. rewrite EK in Q. unfold is_redirect.
    replace (e_mimetype e =? MIMETYPE_ID_REDIRECT) with false by (unfold MIMETYPE_ID_REDIRECT; lia). reflexivity.
  - destruct (IH k ltac:(lia)) as (e1 & e2 & c & b & G1 & RS & EK & RD). exists e, e2, c, b. split; [exact G|]. split; [|auto]. cbn [resolve]. unfold target_url in BD.
    destruct (e_kind e) as [|i] eqn:EKE; [discriminate BD|]. destruct (get_entry_by_url_index (fa_zim A) i) as [t|] eqn:GI; [|discriminate BD]. injection BD as BD.
    pose proof (KC u e G) as Q. unfold kind_consistent in Q. rewrite EKE in Q. unfold is_redirect. replace (e_mimetype e =? MIMETYPE_ID_REDIRECT) with true by (unfold MIMETYPE_ID_REDIRECT; lia).
    unfold follow. rewrite EKE, GI. cbn [bind]. replace t with e1; [exact RS|]. apply (index_iff _ _ _ _ C) in GI.
    assert (GT : get_entry_by_full_url (fa_zim A) v = Ok t) by (apply (lookup_iff _ _ _ _ C); split; [eapply PointerListProofs.znth_in; exact GI|exact BD]). congruence.
Qed.
Lemma read_value : forall A L V, consistent (fa_zim A) L -> shows A V -> forall k key d au v, leads V k (key_url key) d -> (k <= fuel)%nat -> returned au d v -> reads key au A = Ok (Some v).
Proof.
  intros A L V C SH k key d au v LD HK RT. destruct (leads_read A L V C SH k _ d LD fuel HK) as (e0 & e & c & b & G & RS & EK & RD). unfold read_metadata. change (NS_M ++ key) with (key_url key). rewrite G. cbn [bind]. rewrite RS, EK, RD.
  cbn [bind]. destruct au; cbn [returned] in RT; [|rewrite RT; reflexivity]. destruct RT as (s & E & ->). unfold decode. rewrite E. reflexivity.
Qed.
Lemma read_none : forall A L V, consistent (fa_zim A) L -> shows A V -> forall key au b, V (key_url key) = None -> utf8_encode (key_url key) = Some b -> reads key au A = Ok None.
Proof.
  intros A L V C SH key au b HV HE. specialize (SH _ (outside_listing (fa_zim A) _ (key_outside key))). rewrite HV in SH. unfold read_metadata. change (NS_M ++ key) with (key_url key).
  rewrite (proj2 (missing_iff _ _ _ _ C HE)); [reflexivity|]. intros e He Q. apply (SH e). apply (lookup_iff _ _ _ _ C). auto.
Qed.
Lemma read_same : forall A B, same_archive A B -> forall key au, reads key au B = reads key au A.
Proof.
  intros A B [S1 S2 S3 S4 S5 S6 S7 S8] key au. unfold read_metadata. rewrite (lookup_ext (fa_zim A) (fa_zim B)) by assumption.
  assert (RS : forall k e, resolve k (fa_zim B) e = resolve k (fa_zim A) e).
  { induction k as [|k IH]; intro e; [reflexivity|]. cbn [resolve]. unfold follow, get_entry_by_url_index, get_entry_at. change (z_file (fa_zim B)) with (fa_file B). change (z_file (fa_zim A)) with (fa_file A). rewrite S1, S4.
    destruct (is_redirect e); [|reflexivity]. destruct (match e_kind e with Content _ _ => _ | Redirect _ => _ end) as [e'|]; [|reflexivity]. cbn [bind]. apply IH. }
  destruct (get_entry_by_full_url (fa_zim A) (NS_M ++ key)) as [e|x]; cbn [bind]; [|reflexivity]. rewrite RS. destruct (resolve fuel (fa_zim A) e) as [e'|]; [|reflexivity].
  destruct (e_kind e'); [|reflexivity]. rewrite (read_ext fuel dc new_decomp kd (fa_arch A) (fa_arch B)) by assumption. reflexivity.
Qed.

(** *** A second flush does nothing *)
Lemma settled_flush : forall reserve A, settled A -> ho_mutable (fa_header A) = true -> (forall m, z_main (fa_zim A) = Some m -> 0 <= m) -> flushesh reserve A = (Ok tt, A).
Proof.
  intros reserve A (DI & _ & MP) HM MN. unfold flushes, zim_flush, mbind.
  assert (E : sync_main A = (Ok tt, A)).
  { unfold sync_main, fa_assign, hassign. rewrite HM. cbn [negb].
    assert (Q : hval_eqb (inl (match z_main (fa_zim A) with Some m => m | None => NO_PAGE end)) (hget FMainPage (ho_hdr (fa_header A))) = true).
    { cbn [hval_eqb hget]. change (ho_hdr (fa_header A)) with (fa_hdr A). rewrite <- MP. unfold main_page. destruct (h_main_page (fa_hdr A) =? NO_PAGE) eqn:EN; lia. }
    destruct (z_main (fa_zim A)) as [m|] eqn:EM; cbn [hconvert].
    - replace (m <? 0) with false by (specialize (MN m eq_refl); lia). cbn [bind]. rewrite Q. destruct A; reflexivity.
    - cbn [bind]. rewrite Q. destruct A; reflexivity. }
  rewrite E, DI. reflexivity.
Qed.

(** *** The end of a history *)
Lemma flushed : forall reserve n A V ops A1 A', begins reserve A V -> runs reserve n A V ops A1 -> runs reserve n A1 (vsteps V ops) [VFlush] A' -> vadds ops <= n ->
  exists cells L, consistent (fa_zim A') (map snd cells) /\ shows A' (vsteps V ops) /\ flushesh reserve A1 = (Ok tt, A') /\ flushesh reserve A' = (Ok tt, A') /\
    (forall w sc sp, exists B, opens (fa_file A') w sc sp = Ok B /\ same_archive A' B /\ (w = true -> flushesh reserve B = (Ok tt, B))) /\ laid_out Stream reserve A' cells L.
Proof.
  intros reserve n A V ops A1 A' BG R1 R2 Z.
  destruct (begins_ok fuel dc new_decomp new_comp comp flush depth kd Stream md5 feed digest truncate process_blob rounds CD HO reserve n A V ops A1 BG R1 Z) as (mx & cells1 & L1 & Pc & Pp & WC1 & CL1 & Z1).
  inversion R2 as [|? ? ? A2 ? ? W1 CT1 FS1 OK1 E1 R3]; subst. inversion R3 as [? ? W2 CT2|]; subst. cbn [perform_vop perform_zop] in E1. destruct OK1 as (OK1 & _).
  destruct (wflush_step fuel dc new_decomp new_comp comp flush depth kd Stream reserve md5 feed digest truncate process_blob rounds CD HO mx A1 cells1 L1 Pc Pp _ n A' WC1 CL1 OK1 CT1 ltac:(unfold waiting in Z1; lia) (proj2 W1) FS1 E1)
    as (cells2 & L2 & VC & SE & RE & _).
  pose proof (vc_laid _ _ _ _ _ _ _ _ _ _ VC) as LO. pose proof (vc_table _ _ _ _ _ _ _ _ _ _ VC) as T. rewrite RE in T. destruct (proj1 W2) as (F0 & FA & _). pose proof (laid_consistent _ _ _ _ _ LO) as C.
  assert (FL : forall X cells L, laid_out Stream reserve X cells L -> settled X -> flushesh reserve X = (Ok tt, X)).
  { intros X cells L LX SX. apply settled_flush; [exact SX|exact (lo_hmutable _ _ _ _ _ LX)|]. intros m Hm. pose proof (cs_main _ _ (laid_consistent _ _ _ _ _ LX) m Hm). lia. }
  exists cells2, L2. split; [exact C|]. split; [exact (table_shows fuel dc new_decomp new_comp comp flush kd Stream reserve process_blob CD A' cells2 L2 _ LO (FA _ _ LO) T)|]. split; [exact E1|].
  split; [exact (FL _ _ _ LO SE)|]. split; [|exact LO]. intros w sc sp.
  destruct (open_settled fuel dc new_decomp new_comp comp flush depth kd Stream reserve md5 feed digest CD w sc sp A' cells2 L2 LO SE (FA _ _ LO) F0) as (B & E & SA & _ & _ & _ & _ & _ & HW). exists B. split; [exact E|]. split; [exact SA|].
  intro W. destruct (HW W) as (LB & SB & _). exact (FL _ _ _ LB SB).
Qed.

(** *** C71, part 1.  After a history of C65, [get_metadata(key)] flushes the
    archive and returns what the table has for the key, also in the archive that is opened
    from the file (writable or not). *)
Theorem C71_get_partial : forall reserve n A V ops A1 A', begins reserve A V -> runs reserve n A V ops A1 -> runs reserve n A1 (vsteps V ops) [VFlush] A' -> vadds ops <= n ->
  forall key au r,
  (exists k d v, leads (vsteps V ops) k (key_url key) d /\ (k <= fuel)%nat /\ returned au d v /\ r = Some v) \/ (vsteps V ops (key_url key) = None /\ (exists b, utf8_encode (key_url key) = Some b) /\ r = None) ->
  gets reserve true key au A1 = (Ok r, A') /\ forall w sc sp, exists B, opens (fa_file A') w sc sp = Ok B /\ gets reserve w key au B = (Ok r, B).
Proof.
  intros reserve n A V ops A1 A' BG R1 R2 Z key au r HR. destruct (flushed reserve n A V ops A1 A' BG R1 R2 Z) as (cells & L & C & SH & E1 & _ & OP & _).
  assert (RD : reads key au A' = Ok r).
  { destruct HR as [(k & d & v & LD & HK & RT & ->)|(HV & (b & HE) & ->)]; [eapply read_value; eassumption|eapply read_none; eassumption]. }
  split.
  - unfold get_metadata, mbind. unfold flushes in E1. rewrite E1, RD. reflexivity.
  - intros w sc sp. destruct (OP w sc sp) as (B & E & SA & FB). exists B. split; [exact E|]. unfold get_metadata, mbind. pose proof (read_same _ _ SA key au) as Q. destruct w; [unfold flushes in FB; rewrite (FB eq_refl)|unfold ret]; rewrite Q, RD; reflexivity.
Qed.

(** [set_metadata] that returns is such an operation. *)
Theorem C71_set_adds : forall reserve key value m A A', sets key value m A = (Ok tt, A') ->
  exists d, data_of value d /\ key <> [] /\ performv reserve A (VAdd (metadata_item key m d) d false) = (Ok tt, A') /\ (zlen d < Z.of_nat fuel -> item_ok fuel (metadata_item key m d) d).
Proof.
  intros reserve key value m A A' E. unfold set_metadata in E. destruct key as [|c key]; [discriminate E|]. destruct (value_bytes value) as [d|] eqn:EV; [|discriminate E].
  destruct (item_new NS_M (c :: key) m (mem_source d) None false) as [it|] eqn:EI; [|discriminate E].
  assert (Q : it = metadata_item (c :: key) m d).
  { clear - EI. unfold item_new in EI. destruct (check_namespace NS_M); [|discriminate EI]. cbn [bind] in EI. destruct (check_text (c :: key)); [|discriminate EI]. cbn [bind] in EI. destruct (check_text m); [|discriminate EI]. cbn [bind check_title] in EI. injection EI as <-. reflexivity. }
  subst it. exists d. split; [|split; [discriminate|split; [exact E|]]].
  - unfold value_bytes, encode in EV. destruct value as [s|b]; cbn [data_of]; [destruct (utf8_encode s); [|discriminate EV]|]; injection EV as ->; reflexivity.
  - intro HF. split; [exact EI|]. split; [apply mem_delivers; exact HF|intro Q; discriminate Q].
Qed.
(** *** C71, part 2.  The value that was set last, and not touched by anything after it, is returned. *)
Theorem C71_last_set_partial : forall reserve n A V ops key m d more A1 A', begins reserve A V -> runs reserve n A V (ops ++ VAdd (metadata_item key m d) d false :: more) A1 -> Forall (spares (key_url key)) more ->
  runs reserve n A1 (vsteps V (ops ++ VAdd (metadata_item key m d) d false :: more)) [VFlush] A' -> vadds (ops ++ VAdd (metadata_item key m d) d false :: more) <= n ->
  forall au v, returned au d v -> gets reserve true key au A1 = (Ok (Some v), A') /\ forall w sc sp, exists B, opens (fa_file A') w sc sp = Ok B /\ gets reserve w key au B = (Ok (Some v), B).
Proof.
  intros reserve n A V ops key m d more A1 A' BG R1 SP R2 Z au v RT. apply (C71_get_partial reserve n A V _ A1 A' BG R1 R2 Z). left. exists 1%nat, d, v.
  assert (F0 : (0 < fuel)%nat) by (destruct (vruns_ends _ _ _ _ _ _ _ _ _ _ _ _ _ _ _ _ _ _ _ _ _ R2) as (((Q & _) & _) & _); exact Q).
  split; [|split; [lia|auto]]. assert (Q : vsteps V (ops ++ VAdd (metadata_item key m d) d false :: more) (key_url key) = Some (page_of (metadata_item key m d) d)); [|eapply leads_data; [exact Q|apply key_outside|reflexivity]]. unfold vsteps. rewrite fold_left_app. cbn [fold_left]. change (fold_left vstep more ?X) with (vsteps X more). rewrite (all_spared _ more _ SP). apply vput_same.
Qed.

(** *** C71, part 3.  The dict of all metadata, when nothing waits. *)
Lemma dict_loop_ok : forall reserve w A au (val : ustr -> option mvalue) keys, (w = true -> flushesh reserve A = (Ok tt, A)) -> (forall k, In k keys -> reads k (au && negb (is_illustration k)) A = Ok (val k)) ->
  dict_loop fuel dc new_decomp new_comp comp flush depth kd md5 feed digest reserve truncate process_blob rounds w au keys A = (Ok (map (fun k => (k, val k)) keys), A).
Proof.
  intros reserve w A au val. induction keys as [|k keys IH]; intros FL RD; [reflexivity|]. cbn [dict_loop map].
  assert (G : gets reserve w k (au && negb (is_illustration k)) A = (Ok (val k), A)).
  { unfold get_metadata, mbind. destruct w; [unfold flushes in FL; rewrite (FL eq_refl)|unfold ret]; rewrite (RD k (or_introl eq_refl)); reflexivity. }
  unfold mbind at 1. rewrite G. unfold mbind. rewrite (IH FL (fun x Hx => RD x (or_intror Hx))). reflexivity.
Qed.
Lemma keys_same : forall A B, same_archive A B -> get_metadata_keys (fa_zim B) = get_metadata_keys (fa_zim A).
Proof.
  intros A B [S1 S2 S3 S4 S5 S6 S7 S8]. unfold get_metadata_keys. rewrite S4, (key_ext (fa_zim A) (fa_zim B) S1). destruct (encode NS_M); [|reflexivity]. cbn [bind]. destruct (find_first_ge _ _ _) as [start|]; [|reflexivity]. cbn [bind].
  generalize (Z.to_nat (zlen (pl_ptrs (z_upl (fa_zim A))) - start)) as k. intro k. revert start. induction k as [|k IH]; intro i; [reflexivity|]. cbn [metadata_loop]. rewrite S4. destruct (get_by_index _ i) as [p|]; [|reflexivity]. cbn [bind].
  unfold get_entry_at. change (z_file (fa_zim B)) with (fa_file B). change (z_file (fa_zim A)) with (fa_file A). rewrite S1. destruct (if p <? 0 then _ else _) as [e|]; [|reflexivity]. cbn [bind]. rewrite IH. reflexivity.
Qed.
(** Keys that begin with "Illustration_" are those of pictures, whose values are
    never decoded. *)
Lemma picture_iff : forall key, is_illustration key = true <-> is_picture key.
Proof.
  intro key. unfold is_illustration, is_picture. change (codes "Illustration_"%string) with ILLUSTRATION. split.
  - intro E. apply ueqb_eq in E. exists (skipn 13 key). rewrite <- E at 1. symmetry. apply firstn_skipn.
  - intros (rest & ->). apply ueqb_eq. reflexivity.
Qed.
Theorem C71_dict_partial : forall reserve n A V ops A1 A' au (val : ustr -> mvalue), begins reserve A V -> runs reserve n A V ops A1 -> runs reserve n A1 (vsteps V ops) [VFlush] A' -> vadds ops <= n ->
  (forall key, vsteps V ops (key_url key) <> None -> exists k d, leads (vsteps V ops) k (key_url key) d /\ (k <= fuel)%nat /\ forall text, (text = true <-> au = true /\ ~ is_picture key) -> returned text d (val key)) ->
  exists l, NoDup (map fst l) /\ (forall key o, In (key, o) l <-> vsteps V ops (key_url key) <> None /\ o = Some (val key)) /\
    gets_dict reserve true au A' = (Ok l, A') /\ forall w sc sp, exists B, opens (fa_file A') w sc sp = Ok B /\ gets_dict reserve w au B = (Ok l, B).
Proof.
  intros reserve n A V ops A1 A' au val BG R1 R2 Z HV. destruct (flushed reserve n A V ops A1 A' BG R1 R2 Z) as (cells & L & C & SH & _ & E2 & OP & _).
  set (E := map snd cells) in *. set (M := filter (fun e => ueqb (e_ns e) NS_M) E).
  assert (INM : forall key, In key (map e_url M) <-> vsteps V ops (key_url key) <> None).
  { intro key. pose proof (SH _ (outside_listing (fa_zim A') _ (key_outside key))) as S. split.
    - intros Q N. apply in_map_iff in Q as (e & Q & He). apply filter_In in He as (He & EN). apply ueqb_eq in EN. rewrite N in S. apply (S e). apply (lookup_iff _ _ _ _ C). split; [exact He|]. unfold full_url. rewrite EN, Q. reflexivity.
    - intro N. destruct (vsteps V ops (key_url key)) as [p|]; [|congruence]. destruct S as (e & us & G & _). apply (lookup_iff _ _ _ _ C) in G as (G1 & G2). destruct (ns_char e (consistent_storable _ _ _ C G1)) as (c & EC).
      unfold full_url, key_url in G2. rewrite EC in G2. cbn [app NS_M] in G2. injection G2 as -> G2. apply in_map_iff. exists e. split; [exact G2|]. apply filter_In. split; [exact G1|]. rewrite EC. reflexivity. }
  assert (ND : NoDup (map e_url M)).
  { pose proof (consistent_nodup _ _ C) as N0. fold E in N0.
    assert (N1 : NoDup (map full_url M)).
    { unfold M. clear - N0. induction E as [|e E IH]; [constructor|]. cbn [map] in N0. inversion N0 as [|? ? NI ND]; subst. cbn [filter]. destruct (ueqb (e_ns e) NS_M); [|auto]. cbn [map]. constructor; [|auto]. intro Q. apply NI. apply in_map_iff in Q as (x & Q & Hx). apply filter_In in Hx as (Hx & _). rewrite <- Q. apply in_map. exact Hx. }
    assert (Q : map full_url M = map key_url (map e_url M)).
    { rewrite map_map. apply map_ext_in. intros e He. apply filter_In in He as (_ & He). apply ueqb_eq in He. unfold full_url, key_url. rewrite He. reflexivity. }
    rewrite Q in N1. eapply NoDup_map_inv. exact N1. }
  set (l := map (fun k => (k, Some (val k))) (map e_url M)). exists l.
  assert (EL : map fst l = map e_url M) by (unfold l; rewrite map_map; cbn [fst]; apply map_id).
  split; [rewrite EL; exact ND|]. split.
  { intros key o. unfold l. rewrite in_map_iff. split.
    - intros (k & Q & Hk). injection Q as -> <-. split; [apply INM; exact Hk|reflexivity].
    - intros (N & ->). exists key. split; [reflexivity|apply INM; exact N]. }
  assert (RD : forall X, same_archive A' X \/ X = A' -> forall k, In k (map e_url M) -> reads k (au && negb (is_illustration k)) X = Ok (Some (val k))).
  { intros X SX k Hk. replace (reads k (au && negb (is_illustration k)) X) with (reads k (au && negb (is_illustration k)) A') by (destruct SX as [SX| -> ]; [symmetry; apply read_same; exact SX|reflexivity]).
    apply INM in Hk. destruct (HV k Hk) as (j & d & LD & HK & RT). eapply read_value; [eassumption..|]. apply RT. rewrite <- picture_iff. destruct au, (is_illustration k); cbn; intuition congruence. }
  split.
  - unfold get_metadata_dict. rewrite (metadata_keys_ok _ _ C). apply (dict_loop_ok reserve true A' au (fun k => Some (val k))); [intros _; exact E2|apply RD; right; reflexivity].
  - intros w sc sp. destruct (OP w sc sp) as (B & EB & SA & FB). exists B. split; [exact EB|]. unfold get_metadata_dict. rewrite (keys_same _ _ SA), (metadata_keys_ok _ _ C). apply (dict_loop_ok reserve w B au (fun k => Some (val k))); [exact FB|apply RD; left; exact SA].
Qed.

(** ** What a user expects *)
Definition perform_kop reserve (A : farchive) (o : kop) : res unit * farchive :=
  match o with KSet key value m => sets key value m A | KFlush => flushesh reserve A end.
(** All calls return. *)
Inductive kruns reserve : farchive -> list kop -> farchive -> Prop :=
| kruns_nil A : within_limits fuel Stream reserve A -> fsuff reserve A -> kruns reserve A [] A
| kruns_cons A o A1 ops A' : within_limits fuel Stream reserve A -> fsuff reserve A -> perform_kop reserve A o = (Ok tt, A1) -> kruns reserve A1 ops A' -> kruns reserve A (o :: ops) A'.
End Metadata.

(** ** The full claims *)
(** After metadata was set in a new archive, [get_metadata] returns the value that was set last. *)
Definition C71_full_statement : Prop :=
  forall fuel D (dc : decomp D) new_decomp K new_comp comp flush depth kd Stream H (md5 : H) feed digest reserve truncate process_blob rounds,
  codec_ok (K:=K) dc new_decomp new_comp comp flush Stream -> hash_ok feed digest ->
  forall u sc sp A ops A1, zlen u = 16 -> fresh_strategy sc -> fresh_strategy sp -> init_new fuel new_comp comp flush depth reserve u sc sp = Ok A ->
  kruns fuel dc new_decomp new_comp comp flush depth kd Stream md5 feed digest truncate process_blob rounds reserve A ops A1 ->
  forall key value d r A', last_set key ops = Some value -> data_of value d ->
  get_metadata fuel dc new_decomp new_comp comp flush depth kd md5 feed digest reserve truncate process_blob rounds true key false A1 = (Ok r, A') -> r = Some (MBytes d).
(** The dict of all metadata has every key that was set. *)
Definition C71_dict_full_statement : Prop :=
  forall fuel D (dc : decomp D) new_decomp K new_comp comp flush depth kd Stream H (md5 : H) feed digest reserve truncate process_blob rounds,
  codec_ok (K:=K) dc new_decomp new_comp comp flush Stream -> hash_ok feed digest ->
  forall u sc sp A ops A1, zlen u = 16 -> fresh_strategy sc -> fresh_strategy sp -> init_new fuel new_comp comp flush depth reserve u sc sp = Ok A ->
  kruns fuel dc new_decomp new_comp comp flush depth kd Stream md5 feed digest truncate process_blob rounds reserve A ops A1 ->
  forall key value l A', last_set key ops = Some value ->
  get_metadata_dict fuel dc new_decomp new_comp comp flush depth kd md5 feed digest reserve truncate process_blob rounds true false A1 = (Ok l, A') -> In key (map fst l).

Notation sample_kop := (perform_kop sample_fuel passthrough plain_new plain_new_comp plain_comp plain_flush 6 KRemembering 0 sample_feed sample_digest true (fun _ => ret tt) 3 (Some 50)).
Notation sample_kruns := (kruns sample_fuel passthrough plain_new plain_new_comp plain_comp plain_flush 6 KRemembering plain_stream 0 sample_feed sample_digest true (fun _ => ret tt) 3 (Some 50)).
Notation sample_get := (get_metadata sample_fuel passthrough plain_new plain_new_comp plain_comp plain_flush 6 KRemembering 0 sample_feed sample_digest (Some 50) true (fun _ => ret tt) 3).
Notation sample_dict := (get_metadata_dict sample_fuel passthrough plain_new plain_new_comp plain_comp plain_flush 6 KRemembering 0 sample_feed sample_digest (Some 50) true (fun _ => ret tt) 3).
Fixpoint krun (A : farchive) (ops : list kop) : option farchive :=
  if few A && flush_small A then
    match ops with
    | [] => Some A
    | o :: r => match sample_kop A o with (Ok _, A1) => krun A1 r | (Err _, _) => None end
    end
  else None.
Lemma krun_ok : forall ops A A', krun A ops = Some A' -> sample_kruns A ops A'.
Proof.
  induction ops as [|o ops IH]; intros A A' E; cbn [krun] in E; (destruct (few A && flush_small A) eqn:F; [|discriminate E]); apply andb_true_iff in F as (F1 & F2).
  - injection E as <-. constructor; [apply few_ok; exact F1|apply flush_small_suffices; exact F2].
  - destruct (sample_kop A o) as [[[]|] A1] eqn:E1; [|discriminate E]. econstructor; [apply few_ok; exact F1|apply flush_small_suffices; exact F2|exact E1|apply IH; exact E].
Qed.

(** An archive whose strategy sorts items by mimetype. *)
Definition mime_created : res farchive := init_new sample_fuel plain_new_comp plain_comp plain_flush 6 (Some 50) sample_uuid sample_mime sample_simple.
(** [Ma] has mimetype [t]; [Mx] is set with mimetype [n] and again with mimetype [t]. *)
Definition set_twice : list kop := [KSet [97] (MBytes [x41]) [116]; KSet [120] (MBytes [x42]) [110]; KSet [120] (MBytes [x43]) [116]].
Definition value_is (x : res (option mvalue)) (d : bytes) : bool := match x with Ok (Some (MBytes b)) => if list_eq_dec Byte.byte_eq_dec b d then true else false | _ => false end.
Definition outcome {X} (ops : list kop) (f : farchive -> bool * X) (r : res farchive) : bool :=
  match r with Ok A => match krun A ops with Some A1 => fst (f A1) | None => false end | Err _ => false end.
Lemma outcome_ok : forall X ops (f : farchive -> bool * X) r, outcome ops f r = true -> exists A A1, r = Ok A /\ sample_kruns A ops A1 /\ fst (f A1) = true.
Proof.
  intros X ops f r Q. unfold outcome in Q. destruct r as [A|]; [|discriminate Q]. destruct (krun A ops) as [A1|] eqn:E; [|discriminate Q]. exists A, A1. split; [reflexivity|]. split; [apply krun_ok; exact E|exact Q].
Qed.
Definition get_is (key : ustr) (d : bytes) (A : farchive) : bool * unit := let (v, _) := sample_get true key false A in (value_is v d, tt).
Lemma get_is_ok : forall key d A, fst (get_is key d A) = true -> exists A', sample_get true key false A = (Ok (Some (MBytes d)), A').
Proof.
  intros key d A Q. unfold get_is in Q. destruct (sample_get true key false A) as [v A']. cbn [fst] in Q. unfold value_is in Q. destruct v as [[[|b]|]|]; try discriminate Q. destruct (list_eq_dec Byte.byte_eq_dec b d) as [->|]; [|discriminate Q]. exists A'. reflexivity.
Qed.
Lemma set_twice_outcome : outcome set_twice (get_is [120] [x42]) mime_created = true.
Proof. vm_compute. reflexivity. Qed.
(** The first of the two values is returned. *)
Example C71_first_wins : exists A A1 A', mime_created = Ok A /\ sample_kruns A set_twice A1 /\ last_set [120] set_twice = Some (MBytes [x43]) /\ sample_get true [120] false A1 = (Ok (Some (MBytes [x42])), A').
Proof. destruct (outcome_ok _ _ _ _ set_twice_outcome) as (A & A1 & E & R & Q). destruct (get_is_ok _ _ _ Q) as (A' & G). exists A, A1, A'. auto. Qed.
Theorem C71_refuted : ~ C71_full_statement.
Proof.
  intro F. destruct C71_first_wins as (A & A1 & A' & E & R & LS & G). destruct sample_zops_ok as (_ & _ & _ & FS & FM).
  specialize (F sample_fuel _ passthrough plain_new _ plain_new_comp plain_comp plain_flush 6%nat KRemembering plain_stream _ 0 sample_feed sample_digest (Some 50) true (fun _ => ret tt) 3%nat plain_codec sample_hash
    sample_uuid sample_mime sample_simple A set_twice A1 eq_refl FM FS E R [120] (MBytes [x43]) [x43] _ A' LS eq_refl G). discriminate F.
Qed.
(** Metadata is set and the dict is read: it does not have the key, although [get_metadata] finds it. *)
Definition set_once : list kop := [KSet [120] (MBytes [x42]) [116]].
Definition dict_empty (A : farchive) : bool * unit := let (v, _) := sample_dict true false A in (match v with Ok [] => true | _ => false end, tt).
Lemma set_once_outcome : outcome set_once (fun A => (fst (get_is [120] [x42] A) && fst (dict_empty A), tt)) sample_created = true.
Proof. vm_compute. reflexivity. Qed.
Example C71_dict_misses : exists A A1 A' A'', sample_created = Ok A /\ sample_kruns A set_once A1 /\ sample_dict true false A1 = (Ok [], A') /\ sample_get true [120] false A1 = (Ok (Some (MBytes [x42])), A'').
Proof.
  destruct (outcome_ok _ _ _ _ set_once_outcome) as (A & A1 & E & R & Q). cbn [fst] in Q. apply andb_true_iff in Q as (Q1 & Q2). destruct (get_is_ok _ _ _ Q1) as (A'' & G). unfold dict_empty in Q2. destruct (sample_dict true false A1) as [[[|? ?]|] A'] eqn:ED; try discriminate Q2.
  exists A, A1, A', A''. auto.
Qed.
Theorem C71_dict_refuted : ~ C71_dict_full_statement.
Proof.
  intro F. destruct C71_dict_misses as (A & A1 & A' & _ & E & R & G & _). destruct sample_zops_ok as (_ & _ & _ & FS & FM).
  exact (F sample_fuel _ passthrough plain_new _ plain_new_comp plain_comp plain_flush 6%nat KRemembering plain_stream _ 0 sample_feed sample_digest (Some 50) true (fun _ => ret tt) 3%nat plain_codec sample_hash
    sample_uuid sample_simple sample_mime A set_once A1 eq_refl FS FM E R [120] (MBytes [x42]) [] A' eq_refl G).
Qed.

(** ** A case of the theorems *)
(** [Mx] is set, the archive is flushed, [Mx] is set again, which replaces it; then [My] leads to [Mx], and the page [Ca] is added. *)
Definition meta_ops : list vop := [VAdd (metadata_item [120] [116] [x42]) [x42] false; VFlush].
Definition meta_more : list vop := [VFlush; VLink [77; 121] [77; 120] None; VAdd item_a [x41] false].
Definition meta_all : list vop := meta_ops ++ VAdd (metadata_item [120] [110] [x43]) [x43] false :: meta_more.
Definition meta_dom : list ustr := [[77; 120]; [77; 121]; item_url item_a].
Definition meta_run (r : res farchive) : option (farchive * farchive * farchive) :=
  match r with
  | Ok A => match sample_vrun 100 meta_dom A empty_view meta_all with
            | Some A1 => match sample_vrun 100 meta_dom A1 (vsteps empty_view meta_all) [VFlush] with Some A' => Some (A, A1, A') | None => None end
            | None => None
            end
  | Err _ => None
  end.
Lemma meta_item_ok : forall key m d, (item_new NS_M key m (mem_source d) None false = Ok (metadata_item key m d)) -> zlen d < 200 -> item_ok sample_fuel (metadata_item key m d) d.
Proof. intros key m d E Z. apply (larger_ok 200); [|unfold sample_fuel; lia]. split; [exact E|]. split; [apply mem_delivers; exact Z|intro Q; discriminate Q]. Qed.
Lemma meta_side : Forall side_ok (meta_all ++ [VFlush]).
Proof.
  assert (LE : (200 <= sample_fuel)%nat) by (unfold sample_fuel; lia).
  repeat (constructor; [cbn [side_ok]; first [exact I|apply meta_item_ok; [reflexivity|vm_compute; reflexivity]|eapply larger_ok; [exact item_a_ok|exact LE]]|]). constructor.
Qed.
Lemma meta_runs : match meta_run sample_created with Some _ => true | None => false end = true.
Proof. vm_compute. reflexivity. Qed.
Lemma meta_ran : exists A A1 A', sample_created = Ok A /\ sample_vruns 100 A empty_view meta_all A1 /\ sample_vruns 100 A1 (vsteps empty_view meta_all) [VFlush] A'.
Proof.
  pose proof meta_runs as Q. unfold meta_run in Q. destruct sample_created as [A|]; [|discriminate Q]. destruct (sample_vrun 100 meta_dom A empty_view meta_all) as [A1|] eqn:E1; [|discriminate Q].
  destruct (sample_vrun 100 meta_dom A1 (vsteps empty_view meta_all) [VFlush]) as [A'|] eqn:E2; [|discriminate Q]. pose proof meta_side as SO. apply Forall_app in SO as (S1 & S2).
  assert (T1 : incl (touches empty_view meta_all) meta_dom) by (intros x HX; vm_compute in HX; vm_compute; tauto).
  exists A, A1, A'. split; [reflexivity|]. split; (eapply (sample_vrun_ok 100 meta_dom); [| |eassumption|eassumption]).
  - intros x HX. elim HX. reflexivity.
  - exact T1.
  - intros x HX. destruct (touches_ok meta_all empty_view x HX) as [HX2|HX2]; [apply T1; exact HX2|elim HX2; reflexivity].
  - intros x HX. vm_compute in HX. destruct HX.
Qed.
Example C71_example : exists A A1 A', sample_created = Ok A /\ sample_vruns 100 A empty_view meta_all A1 /\ sample_get true [120] true A1 = (Ok (Some (MText [67])), A') /\
  sample_get true [121] true A1 = (Ok (Some (MText [67])), A') /\ sample_get true [122] true A1 = (Ok None, A') /\
  exists B, sample_open (fa_file A') false sample_simple sample_simple = Ok B /\ sample_get false [120] true B = (Ok (Some (MText [67])), B) /\ sample_get false [121] true B = (Ok (Some (MText [67])), B) /\
  exists l, NoDup (map fst l) /\ (forall key o, In (key, o) l <-> (key = [120] \/ key = [121]) /\ o = Some (MText [67])) /\ sample_dict false true B = (Ok l, B).
Proof.
  destruct meta_ran as (A & A1 & A' & E & R1 & R2). pose proof (new_begins A E) as BG. exists A, A1, A'.
  assert (Z : vadds meta_all <= 100) by (vm_compute; discriminate).
  pose proof (C71_get_partial sample_fuel passthrough plain_new plain_new_comp plain_comp plain_flush 6 KRemembering plain_stream 0 sample_feed sample_digest true (fun _ => ret tt) 3 plain_codec sample_hash (Some 50) 100 A empty_view meta_all A1 A' BG R1 R2 Z) as GET.
  destruct (C71_last_set_partial sample_fuel passthrough plain_new plain_new_comp plain_comp plain_flush 6 KRemembering plain_stream 0 sample_feed sample_digest true (fun _ => ret tt) 3 plain_codec sample_hash (Some 50) 100 A empty_view meta_ops [120] [110] [x43] meta_more A1 A' BG R1
    ltac:(repeat constructor; discriminate) R2 Z true (MText [67]) ltac:(exists [67]; split; reflexivity)) as (G1 & O1).
  assert (LX : leads (vsteps empty_view meta_all) 1 [77; 120] [x43]) by (eapply leads_data; [reflexivity|discriminate|reflexivity]).
  assert (LY : leads (vsteps empty_view meta_all) 2 [77; 121] [x43]) by (eapply leads_link; [reflexivity|discriminate|reflexivity|exact LX]).
  assert (RT : returned true [x43] (MText [67])) by (exists [67]; split; reflexivity).
  assert (F2 : (2 <= sample_fuel)%nat) by (unfold sample_fuel; lia). assert (F1 : (1 <= sample_fuel)%nat) by (unfold sample_fuel; lia).
  destruct (GET [121] true (Some (MText [67]))) as (G2 & O2); [left; exists 2%nat, [x43], (MText [67]); auto|].
  destruct (GET [122] true None) as (G3 & _); [right; split; [reflexivity|split; [eexists; reflexivity|reflexivity]]|].
  destruct (C71_dict_partial sample_fuel passthrough plain_new plain_new_comp plain_comp plain_flush 6 KRemembering plain_stream 0 sample_feed sample_digest true (fun _ => ret tt) 3 plain_codec sample_hash (Some 50) 100 A empty_view meta_all A1 A' true (fun _ => MText [67]) BG R1 R2 Z) as (l & ND & INL & _ & OD).
  { intros key N. destruct (touches_ok meta_all empty_view (key_url key) N) as [Q|Q]; [|elim Q; reflexivity]. vm_compute in Q. unfold key_url in Q.
    destruct Q as [Q|[Q|[Q|[Q|[]]]]]; try discriminate Q; injection Q as <-; first [exists 1%nat, [x43]; split; [exact LX|split; [auto|]]|exists 2%nat, [x43]; split; [exact LY|split; [auto|]]]; (intros text (_ & HT); rewrite HT; [exact RT|split; [reflexivity|intros (r & QR); discriminate QR]]). }
  split; [exact E|]. split; [exact R1|]. split; [exact G1|]. split; [exact G2|]. split; [exact G3|].
  destruct (O1 false sample_simple sample_simple) as (B & EB & P1). destruct (O2 false sample_simple sample_simple) as (B2 & EB2 & P2). destruct (OD false sample_simple sample_simple) as (B3 & EB3 & P3).
  rewrite EB in EB2, EB3. injection EB2 as <-. injection EB3 as <-. exists B. split; [exact EB|]. split; [exact P1|]. split; [exact P2|]. exists l. split; [exact ND|]. split; [|exact P3].
  intros key o. rewrite INL. split.
  - intros (N & ->). split; [|reflexivity]. destruct (touches_ok meta_all empty_view (key_url key) N) as [Q|Q]; [|elim Q; reflexivity]. vm_compute in Q. unfold key_url in Q. destruct Q as [Q|[Q|[Q|[Q|[]]]]]; try discriminate Q; injection Q as <-; auto.
  - intros ([-> | -> ] & ->); split; try reflexivity; vm_compute; discriminate.
Qed.

Print Assumptions C71_get_partial.
Print Assumptions C71_set_adds.
Print Assumptions C71_last_set_partial.
Print Assumptions C71_dict_partial.
Print Assumptions C71_refuted.
Print Assumptions C71_dict_refuted.
Print Assumptions C71_first_wins.
Print Assumptions C71_dict_misses.
Print Assumptions C71_example.
