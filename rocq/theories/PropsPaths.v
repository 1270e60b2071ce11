(** Property C100: files are replaced only when this is asked for. *)
From Coq Require Import List ZArith Bool Lia Strings.Byte.
From Coq Require Import ZifyBool ZifyNat.
From Verif Require Import Base BaseProofs Utf8 Utf8Proofs Infobyte Header MimeTypeList Entry EntrySpec Reader ReaderSpec Decompressors DecompressorsProofs Blob PointerList Cluster ClusterSpec ClusterWrapperSpec Archive ArchiveSpec ArchiveProofs
  ArchiveCluster ArchiveClusterSpec CompressionStrategy CompressionStrategySpec OperationBuffer IterByCluster Flush FlushSpec FlushProofs FlushHistorySpec FlushCreateProofs ViewSpec ViewHistoryProofs
  Translator TranslatorSpec PropsArchiveCluster PropsCompressionStrategy PropsFlush PropsView PropsMainPage ClusterWrapperProofs PropsMetadata PropsTranslator PropsReadOnly Paths.
Import ListNotations.
Open Scope Z_scope.

Lemma store_same : forall d p f, store d p f p = Some f.
Proof. intros. unfold store. rewrite ueqb_refl. reflexivity. Qed.
Lemma store_other : forall d p f q, q <> p -> store d p f q = d q.
Proof. intros d p f q N. unfold store. replace (ueqb q p) with false; [reflexivity|]. symmetry. apply ueqb_neq. exact N. Qed.

Lemma has_same : forall s s' u, z_file s = z_file s' -> pl_ptrs (z_upl s) = pl_ptrs (z_upl s') -> has_entry_for_full_url s u = has_entry_for_full_url s' u.
Proof. intros s s' u F P. unfold has_entry_for_full_url, url_key, get_entry_at. rewrite F, P. reflexivity. Qed.

Section Paths.
Variable fuel : nat.
Context {D : Type}.
Variable dc : decomp D.
Variable new_decomp : ctype -> res D.
Context {K : Type}.
Variable new_comp : ctype -> res K.
Variable comp : K -> bytes -> res (bytes * K).
Variable flush : K -> res bytes.
Variable depth : nat.
Variable kd : ckind.
Variable remains : bytes -> bytes.
Notation opens := (open_zim fuel dc new_decomp new_comp comp flush depth kd).
Notation zopen reserve := (zim_open fuel dc new_decomp new_comp comp flush depth kd reserve remains).
Notation tnew reserve := (translator_new fuel dc new_decomp new_comp comp flush depth kd reserve remains).

(** ** Opening *)
(** No other file is touched, whatever the mode and the outcome. *)
Theorem C100_other_files : forall reserve d path mode u sc sp r d', zopen reserve d path mode u sc sp = (r, d') -> forall p, p <> path -> d' p = d p.
Proof.
  intros reserve d path mode u sc sp r d' E p N.
  assert (G : d' = d \/ exists f, d' = store d path f).
  { unfold zim_open, open_new in E. destruct mode.
    - destruct (d path); injection E as _ <-; auto.
    - destruct (init_new _ _ _ _ _ _ _ _ _); injection E as _ <-; eauto.
    - destruct (d path); [injection E as _ <-; auto|]. destruct (init_new _ _ _ _ _ _ _ _ _); injection E as _ <-; eauto.
    - destruct (d path); [|injection E as _ <-; auto]. destruct (opens _ _ _ _); injection E as _ <-; eauto.
    - injection E as _ <-. auto. }
  destruct G as [->|(f & ->)]; [reflexivity|]. apply store_other. exact N.
Qed.
(** Mode "r" changes no file and makes none. *)
Theorem C100_reading : forall reserve d path u sc sp r d', zopen reserve d path ModeR u sc sp = (r, d') ->
  d' = d /\ (d path = None -> r = inr FileNotFoundError) /\ forall A, r = inl A -> d path = Some (fa_file A).
Proof.
  intros reserve d path u sc sp r d' E. cbn [zim_open] in E. destruct (d path) as [f|] eqn:EF; injection E as <- <-.
  - split; [reflexivity|]. split; [discriminate|]. intros A Q. destruct (opens f false sc sp) as [B|x] eqn:EO; [|discriminate Q]. injection Q as ->.
    pose proof (opened_clean fuel dc new_decomp new_comp comp flush depth kd f sc sp A EO) as (_ & _ & _ & QF & _). congruence.
  - split; [reflexivity|]. split; [reflexivity|discriminate].
Qed.
(** Mode "x" never touches a file that is there. *)
Theorem C100_exclusive : forall reserve d path u sc sp f, d path = Some f -> zopen reserve d path ModeX u sc sp = (inr FileExistsError, d).
Proof. intros reserve d path u sc sp f E. cbn [zim_open]. rewrite E. reflexivity. Qed.
(** Mode "x" for a path without a file, and mode "w" for any, are the same: the
    archive that is made does not depend on what was there, and is in the file. *)
Theorem C100_new : forall reserve d path u sc sp, (d path = None -> zopen reserve d path ModeX u sc sp = zopen reserve d path ModeW u sc sp) /\
  (forall d', fst (zopen reserve d' path ModeW u sc sp) = fst (zopen reserve d path ModeW u sc sp)) /\
  forall A d', zopen reserve d path ModeW u sc sp = (inl A, d') -> init_new fuel new_comp comp flush depth reserve u sc sp = Ok A /\ d' path = Some (fa_file A).
Proof.
  intros reserve d path u sc sp. cbn [zim_open]. unfold open_new. split; [intros ->; reflexivity|]. destruct (init_new _ _ _ _ _ _ _ _ _) as [B|x]; (split; [reflexivity|]); intros A d' E.
  - injection E as <- <-. split; [reflexivity|apply store_same].
  - discriminate E.
Qed.
(** Modes "u" and "a" need a file, and leave it as it is, if it has the list of
    articles that every archive of this library has; so does any other mode. *)
Theorem C100_update : forall reserve d path u sc sp, (d path = None -> zopen reserve d path ModeU u sc sp = (inr FileNotFoundError, d)) /\
  (forall A B d', zopen reserve d path ModeU u sc sp = (inl A, d') -> fst (zopen reserve d path ModeR u sc sp) = inl B ->
     has_entry_for_full_url (fa_zim B) URL_ARTICLE_TITLE_INDEX = Ok true -> forall p, d' p = d p) /\
  zopen reserve d path ModeOther u sc sp = (inr (Raised ValueError), d).
Proof.
  intros reserve d path u sc sp. split; [intro E; cbn [zim_open]; rewrite E; reflexivity|]. split; [|reflexivity].
  intros A B d' E R HL p. cbn [zim_open] in E, R. destruct (d path) as [f|] eqn:EF; [|discriminate E]. cbn [fst] in R.
  destruct (opens f false sc sp) as [B'|] eqn:EB; [|discriminate R]. injection R as ->. destruct (opens f true sc sp) as [A'|] eqn:EA; [|discriminate E]. injection E as <- <-.
  assert (F : fa_file A' = f).
  { unfold open_zim in EA, EB. destruct (header_from_file f 0) as [h|]; cbn [bind] in EA, EB; [|discriminate EA]. destruct (mt_from_file _) as [m|]; cbn [bind] in EA, EB; [|discriminate EA].
    destruct (ptrs_from_file 8 f (h_entry_count h) (h_url_pos h)) as [ul|]; cbn [bind] in EA, EB; [|discriminate EA]. destruct (ptrs_from_file 8 f (h_cluster_count h) (h_cluster_pos h)) as [cl|]; cbn [bind] in EA, EB; [|discriminate EA].
    match type of EB with bind ?x _ = _ => destruct x as [et'|]; cbn [bind] in EB; [|discriminate EB] end.
    match type of EA with bind ?x _ = _ => destruct x as [et|]; cbn [bind] in EA; [|discriminate EA] end.
    match type of EB with bind ?x _ = _ => destruct x as [b'|] eqn:HB; cbn [bind] in EB; [|discriminate EB] end.
    match type of EB with bind ?x _ = _ => destruct x as [al'|]; cbn [bind] in EB; [|discriminate EB] end. rewrite orb_true_r in EB. injection EB as <-.
    assert (b' = true) as ->.
    { match type of HL with has_entry_for_full_url ?z _ = _ => match type of HB with has_entry_for_full_url ?y _ = _ => pose proof (has_same y z _ eq_refl eq_refl : has_entry_for_full_url y URL_ARTICLE_TITLE_INDEX = _) as Q end end. congruence. }
    match type of HB with has_entry_for_full_url ?z _ = _ => match type of EA with bind (has_entry_for_full_url ?y ?u) _ = _ => rewrite (has_same y z u eq_refl eq_refl), HB in EA end end. cbn [bind] in EA.
    match type of EA with bind ?x _ = _ => destruct x as [al|]; cbn [bind] in EA; [|discriminate EA] end. cbn [orb] in EA. injection EA as <-. reflexivity. }
  rewrite F. unfold store. destruct (ueqb p path) eqn:Q; [|reflexivity]. apply ueqb_eq in Q as ->. congruence.
Qed.

(** ** Translators *)
(** If the input cannot be opened, or the output is there and must not be
    replaced, nothing has changed. *)
Theorem C100_translator_refuses : forall reserve d inpath outpath replace isc isp u sc sp,
  (forall e, fst (zopen reserve d inpath ModeR u isc isp) = inr e -> tnew reserve d inpath outpath replace isc isp u sc sp = (inr e, d)) /\
  (forall Ain f, fst (zopen reserve d inpath ModeR u isc isp) = inl Ain -> d outpath = Some f -> tnew reserve d inpath outpath false isc isp u sc sp = (inr FileExistsError, d)).
Proof.
  intros reserve d inpath outpath replace isc isp u sc sp. unfold translator_new. destruct (zopen reserve d inpath ModeR u isc isp) as [r d1] eqn:E. destruct (C100_reading _ _ _ _ _ _ _ _ E) as (-> & _). cbn [fst]. split.
  - intros e ->. reflexivity.
  - intros Ain f -> F. rewrite (C100_exclusive _ _ _ _ _ _ _ F). reflexivity.
Qed.

Variable Stream : ctype -> bytes -> bytes -> Prop.
Context {H : Type}.
Variable md5 : H.
Variable feed : H -> bytes -> H.
Variable digest : H -> bytes.
Variable truncate : bool.
Variable process_blob : entry -> M zim unit.
Variable rounds : nat.
Notation tpaths reserve := (translate_paths fuel dc new_decomp new_comp comp flush depth kd reserve remains md5 feed digest truncate process_blob rounds).
Notation shows := (shows fuel dc new_decomp kd).
Notation runs reserve := (vruns fuel dc new_decomp new_comp comp flush depth kd Stream md5 feed digest reserve truncate process_blob rounds).
Notation begins := (begins fuel dc new_decomp new_comp comp flush depth kd Stream).
Notation fits := (roomy fuel dc new_decomp new_comp comp flush depth kd Stream md5 feed digest truncate process_blob rounds).

(** Whatever happens, only the output changes. *)
Theorem C100_translator_files_partial : forall reserve d inpath outpath replace isc isp u sc sp r d', tpaths reserve d inpath outpath replace isc isp u sc sp = (r, d') ->
  inpath <> outpath -> d' inpath = d inpath /\ forall p, p <> outpath -> d' p = d p.
Proof.
  intros reserve d inpath outpath replace isc isp u sc sp r d' E N.
  assert (G : forall p, p <> outpath -> d' p = d p); [|split; [apply G; exact N|exact G]].
  intros p NP. unfold translate_paths, translator_new in E. destruct (zopen reserve d inpath ModeR u isc isp) as [[Ain|x] d1] eqn:E1; destruct (C100_reading _ _ _ _ _ _ _ _ E1) as (-> & _).
  2:{ injection E as _ <-. reflexivity. }
  destruct (zopen reserve d outpath _ u sc sp) as [[A|x] d2] eqn:E2; pose proof (C100_other_files _ _ _ _ _ _ _ _ _ E2 p NP) as Q.
  2:{ injection E as _ <-. exact Q. }
  destruct (translate _ _ _ _ _ _ _ _ _ _ _ _ _ _ _ _ _ A) as [[[]|x] A']; injection E as _ <-; rewrite store_other by exact NP; exact Q.
Qed.

Hypothesis CD : codec_ok dc new_decomp new_comp comp flush Stream.
Hypothesis HO : hash_ok feed digest.
(** The file at [inpath] was made by a history of C65.  If the translator returns,
    then the archive that is opened from [outpath] has the pages of the one at
    [inpath], which is as before. *)
Theorem C100_translation_partial : forall rin m A0 V ops A1 A2 (d : disk) inpath outpath replace isc isp r u sc sp n A' d', begins rin A0 V -> runs rin m A0 V ops A1 -> runs rin m A1 (vsteps V ops) [VFlush] A2 -> vadds ops <= m ->
  copyable (vsteps V ops) -> d inpath = Some (fa_file A2) -> inpath <> outpath ->
  0 <= r -> zlen u = 16 -> fresh_strategy sc -> fresh_strategy sp ->
  (forall Ain A, tnew (Some r) d inpath outpath replace isc isp u sc sp = (inl (Ain, A), store d outpath (fa_file A)) ->
     zlen (concat (fst (iter_by_cluster (fa_zim Ain)))) <= n /\ fits (Some r) n Ain A (concat (fst (iter_by_cluster (fa_zim Ain))))) ->
  tpaths (Some r) d inpath outpath replace isc isp u sc sp = (inl A', d') ->
  d' inpath = Some (fa_file A2) /\
  forall u' sc' sp', exists B W, zopen (Some r) d' outpath ModeR u' sc' sp' = (inl B, d') /\ copy_of (vsteps V ops) W /\ shows B W.
Proof.
  intros rin m A0 V ops A1 A2 d inpath outpath replace isc isp r u sc sp n A' d' BG R1 R2 Z CV DI N Hr HU F1 F2 FIT E.
  split; [rewrite (proj1 (C100_translator_files_partial _ _ _ _ _ _ _ _ _ _ _ _ E N)); exact DI|]. intros u' sc' sp'.
  unfold translate_paths in E. destruct (tnew (Some r) d inpath outpath replace isc isp u sc sp) as [[[Ain A]|x] d1] eqn:ET; [|discriminate E].
  assert (P : open_zim fuel dc new_decomp new_comp comp flush depth kd (fa_file A2) false isc isp = Ok Ain /\ init_new fuel new_comp comp flush depth (Some r) u sc sp = Ok A /\ d1 = store d outpath (fa_file A)).
  { unfold translator_new in ET. cbn [zim_open] in ET. rewrite DI in ET. destruct (open_zim _ _ _ _ _ _ _ _ (fa_file A2) false isc isp) as [X|]; cbn [from_res] in ET; [|discriminate ET].
    assert (ON : forall q, open_new fuel new_comp comp flush depth (Some r) remains d outpath u sc sp = (inl q, d1) -> init_new fuel new_comp comp flush depth (Some r) u sc sp = Ok q /\ d1 = store d outpath (fa_file q)).
    { intros q Q. unfold open_new in Q. destruct (init_new _ _ _ _ _ _ _ _ _) as [q'|]; [|discriminate Q]. injection Q as <- <-. auto. }
    destruct replace; cbn [zim_open] in ET; [|destruct (d outpath); [discriminate ET|]];
      (destruct (open_new _ _ _ _ _ _ _ _ _ _ _ _) as [[q|] d2] eqn:EN; [|discriminate ET]; injection ET as <- <- <-; destruct (ON _ eq_refl) as (Q1 & Q2); auto). }
  destruct P as (EO & IN & ->). destruct (FIT Ain A eq_refl) as (ZN & RO).
  destruct (translate _ _ _ _ _ _ _ _ _ _ _ _ _ _ _ _ _ A) as [[[]|x] A3] eqn:ER; [|discriminate E]. injection E as <- <-.
  destruct (C72_history_partial fuel dc new_decomp new_comp comp flush depth kd Stream md5 feed digest truncate process_blob rounds CD HO rin m A0 V ops A1 A2 false isc isp Ain r u sc sp A A3 n false sc' sp'
    BG R1 R2 Z EO CV Hr HU F1 F2 IN ZN RO ER) as (W & CW & _ & B & EB & _ & SB).
  exists B, W. cbn [zim_open]. rewrite store_same, EB. auto.
Qed.
End Paths.

(** ** Refutation of C100 *)
(** A translator never changes its input. *)
Definition C100_full_statement : Prop :=
  forall fuel D (dc : decomp D) new_decomp K new_comp comp flush depth kd reserve remains d inpath outpath replace isc isp u sc sp r d',
  translator_new (K:=K) fuel dc new_decomp new_comp comp flush depth kd reserve remains d inpath outpath replace isc isp u sc sp = (r, d') -> d' inpath = d inpath.
(** With the default [allow_replacement] and the same path for both, the input is
    emptied before anything is read from it. *)
Definition same_path (d : disk) : pres (farchive * farchive) * disk :=
  translator_new sample_fuel passthrough plain_new plain_new_comp plain_comp plain_flush 6 KRemembering (Some 50) (fun f => f) d [120] [120] true sample_simple sample_simple sample_uuid sample_simple sample_mime.
Definition file_size (d : disk) : option Z := option_map zlen (d [120]).
Definition only (X : farchive) : disk := fun p => if ueqb p [120] then Some (fa_file X) else None.
Definition emptied (r : res farchive) : bool :=
  match r with
  | Ok X => match file_size (only X), file_size (snd (same_path (only X))) with Some a, Some b => negb (a =? b) | _, _ => false end
  | Err _ => false
  end.
Lemma sample_emptied : emptied (vend_of sample_created) = true.
Proof. vm_compute. reflexivity. Qed.
Theorem C100_refuted : ~ C100_full_statement.
Proof.
  intro F. pose proof sample_emptied as Q. unfold emptied in Q. destruct (vend_of sample_created) as [X|x]; [|discriminate Q].
  destruct (same_path (only X)) as [r d'] eqn:E. cbn [snd] in Q. specialize (F _ _ _ _ _ _ _ _ _ _ _ _ _ _ _ _ _ _ _ _ _ _ _ E). unfold file_size in Q. rewrite F in Q.
  destruct (option_map zlen (only X [120])) as [a|]; [|discriminate Q]. rewrite Z.eqb_refl in Q. discriminate Q.
Qed.

(** A case that meets the hypotheses: the archive of [full_ops] is at "x"; it is
    translated to "y", where nothing is, without the permission to replace. *)
Notation sample_tpaths := (translate_paths sample_fuel passthrough plain_new plain_new_comp plain_comp plain_flush 6 KRemembering (Some 50) (fun f => f) 0 sample_feed sample_digest true (fun _ => ret tt) 3).
Example C100_example : exists A A1 A2 Ain A' d', ready full_ops A A1 A2 Ain /\
  sample_tpaths (only A2) [120] [121] false sample_simple sample_simple sample_uuid sample_simple sample_mime = (inl A', d') /\
  d' [120] = Some (fa_file A2) /\ only A2 [121] = None /\
  exists B W, zim_open sample_fuel passthrough plain_new plain_new_comp plain_comp plain_flush 6 KRemembering (Some 50) (fun f => f) d' [121] ModeR sample_uuid sample_simple sample_simple = (inl B, d') /\
    shows sample_fuel passthrough plain_new KRemembering B W /\
    W [67; 97] = Some (mkPage [97] true (Data [x6d] [x41])) /\ W [67; 120] = Some (mkPage [84] false (Link [67; 98])) /\
  fst (sample_tpaths d' [120] [121] false sample_simple sample_simple sample_uuid sample_simple sample_mime) = inr FileExistsError.
Proof.
  destruct (outcome_parts false full_ops returns full_side full_dom full_returns) as (A & A1 & A2 & Ain & q & A' & RD & ET & U). destruct q as [[]|]; [|discriminate U]. pose proof RD as [E R1 R2 EO ZN RO]. destruct sample_zops_ok as (_ & _ & _ & FS & FM).
  assert (DI : only A2 [120] = Some (fa_file A2)) by reflexivity.
  assert (NO : only A2 [121] = None) by reflexivity.
  assert (EN : init_new sample_fuel plain_new_comp plain_comp plain_flush 6 (Some 50) sample_uuid sample_simple sample_mime = Ok A) by exact E.
  assert (ETN : translator_new sample_fuel passthrough plain_new plain_new_comp plain_comp plain_flush 6 KRemembering (Some 50) (fun f => f) (only A2) [120] [121] false sample_simple sample_simple sample_uuid sample_simple sample_mime
    = (inl (Ain, A), store (only A2) [121] (fa_file A))).
  { unfold translator_new. cbn [zim_open]. rewrite DI. rewrite EO. cbn [from_res zim_open]. rewrite NO. unfold open_new. rewrite EN. reflexivity. }
  assert (EP : sample_tpaths (only A2) [120] [121] false sample_simple sample_simple sample_uuid sample_simple sample_mime = (inl A', store (store (only A2) [121] (fa_file A)) [121] (fa_file A'))).
  { unfold translate_paths. rewrite ETN. cbn beta iota in ET. rewrite ET. reflexivity. }
  destruct (C100_translation_partial sample_fuel passthrough plain_new plain_new_comp plain_comp plain_flush 6 KRemembering (fun f => f) plain_stream 0 sample_feed sample_digest true (fun _ => ret tt) 3 plain_codec sample_hash
    (Some 50) 100 A empty_view full_ops A1 A2 (only A2) [120] [121] false sample_simple sample_simple 50 sample_uuid sample_simple sample_mime 100 A' (store (store (only A2) [121] (fa_file A)) [121] (fa_file A')) (new_begins A E) R1 R2 ltac:(vm_compute; discriminate) full_copyable DI ltac:(discriminate) ltac:(lia) eq_refl FS FM) with (2 := EP) as (K1 & K2).
  { intros X Y Q. rewrite ETN in Q. injection Q as <- <- _. split; [exact ZN|exact RO]. }
  destruct (K2 sample_uuid sample_simple sample_simple) as (B & W & EB & CW & SB).
  exists A, A1, A2, Ain, A'. eexists. split; [exact RD|]. split; [exact EP|]. split; [exact K1|]. split; [reflexivity|].
  exists B, W. split; [exact EB|]. split; [exact SB|].
  assert (NL : forall c, ~ left_out [67; c]) by (intros c [Q|[Q|Q]]; discriminate Q).
  split; [rewrite (proj2 (CW _) (NL _)); reflexivity|]. split; [rewrite (proj2 (CW _) (NL _)); reflexivity|].
  unfold translate_paths, translator_new. cbn [zim_open]. rewrite K1, EO. reflexivity.
Qed.

Print Assumptions C100_other_files.
Print Assumptions C100_reading.
Print Assumptions C100_exclusive.
Print Assumptions C100_new.
Print Assumptions C100_update.
Print Assumptions C100_translator_refuses.
Print Assumptions C100_translator_files_partial.
Print Assumptions C100_translation_partial.
Print Assumptions C100_refuted.
Print Assumptions C100_example.
