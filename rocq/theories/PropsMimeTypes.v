(** Property C103: the mimetype of every entry can be asked for and is listed. *)
From Coq Require Import List ZArith Bool Lia Strings.Byte.
From Coq Require Import ZifyBool ZifyNat.
From Verif Require Import Base BaseProofs Utf8 Utf8Proofs Infobyte Header MimeTypeList MimeTypeListSpec Entry EntrySpec Reader ReaderSpec Decompressors DecompressorsProofs Blob PointerList Cluster ClusterSpec ClusterWrapperSpec ClusterWrapperProofs Archive ArchiveSpec ArchiveProofs
  ArchiveCluster ArchiveClusterSpec CompressionStrategy CompressionStrategySpec OperationBuffer IterByCluster IterByClusterProofs Flush FlushSpec FlushHistorySpec FlushCreateProofs ViewSpec PropsArchiveCluster PropsCompressionStrategy PropsFlush PropsView MimeTypes.
Import ListNotations.
Open Scope Z_scope.

(** ** Proofs *)
Lemma by_url_kind : forall s u e, get_entry_by_full_url s u = Ok e -> kind_consistent e.
Proof.
  intros s u e E. unfold get_entry_by_full_url in E. destruct (url_pointer s u) as [location|x] eqn:EL; [|destruct x; discriminate E].
  unfold get_entry_at in E. destruct (location <? 0); [discriminate E|]. exact (proj1 (entry_at_kind _ _ _ E)).
Qed.
Lemma got_in : forall i l m, mt_get i l = Ok m -> nth_error l (Z.to_nat i) = Some m /\ 0 <= i < zlen l.
Proof.
  intros i l m E. unfold mt_get in E. destruct ((zlen l <=? i) || (i <? 0)) eqn:Q; [discriminate E|]. destruct (nth_error l (Z.to_nat i)); [|discriminate E]. injection E as ->. split; [reflexivity|lia].
Qed.

(** ** C103 *)
Section Table.
Variable fuel : nat.
Context {D : Type}.
Variable dc : decomp D.
Variable new_decomp : ctype -> res D.
Variable kd : ckind.
(** An archive that shows a table of pages: the entry of a page has the mimetype of
    the page, which is one of those that are listed; that of a redirect is
    "<redirect>". *)
Theorem C103_table : forall A V u p, shows fuel dc new_decomp kd A V -> ~ listing (fa_zim A) u -> V u = Some p ->
  exists e, get_entry_by_full_url (fa_zim A) u = Ok e /\
  match pg_body p with
  | Data m _ => In m (iter_mimetypes A) /\ forall s, utf8_encode s = Some m ->
      get_mimetype_of_entry A e = Ok s /\ exists i, 0 <= i < zlen (iter_mimetypes A) /\ get_mimetype_by_index A i = Ok s
  | Link _ => get_mimetype_of_entry A e = Ok REDIRECT_TYPE
  end.
Proof.
  intros A V u p SH NL EV. specialize (SH u NL). rewrite EV in SH. destruct SH as (e & us & G & _ & _ & _ & B). exists e. split; [exact G|]. pose proof (by_url_kind _ _ _ G) as KC. unfold kind_consistent in KC.
  destruct (pg_body p) as [m d|v].
  - destruct B as (c & b & EK & GM & _). rewrite EK in KC. destruct (got_in _ _ _ GM) as (N & R). split; [eapply nth_error_In; exact N|]. intros s ES.
    assert (GI : get_mimetype_by_index A (e_mimetype e) = Ok s) by (unfold get_mimetype_by_index; rewrite GM; cbn [bind]; unfold decode; rewrite (decode_encode s m ES); reflexivity).
    split; [|exists (e_mimetype e); split; [exact R|exact GI]]. unfold get_mimetype_of_entry. replace (is_redirect e) with false; [exact GI|]. unfold is_redirect, MIMETYPE_ID_REDIRECT in *. lia.
  - unfold target_url in B. destruct (e_kind e) as [c b|i]; [discriminate B|]. unfold get_mimetype_of_entry. replace (is_redirect e) with true; [reflexivity|]. unfold is_redirect, MIMETYPE_ID_REDIRECT in *. lia.
Qed.
End Table.

(** Listing the mimetypes and asking for them by their number agree; other numbers
    are refused. *)
Theorem C103_numbers : forall A i,
  (forall m, nth_error (iter_mimetypes A) (Z.to_nat i) = Some m -> 0 <= i -> forall s, utf8_encode s = Some m -> get_mimetype_by_index A i = Ok s) /\
  (i < 0 \/ zlen (iter_mimetypes A) <= i -> get_mimetype_by_index A i = Err IndexError).
Proof.
  intros A i. unfold iter_mimetypes, get_mimetype_by_index, mt_get. split.
  - intros m N P s ES. assert (LT : (Z.to_nat i < length (ml_types (fa_mimes A)))%nat) by (apply nth_error_Some; congruence).
    replace ((zlen (ml_types (fa_mimes A)) <=? i) || (i <? 0)) with false by (unfold zlen; lia). rewrite N. cbn [bind]. unfold decode. rewrite (decode_encode s m ES). reflexivity.
  - intro Q. replace ((zlen (ml_types (fa_mimes A)) <=? i) || (i <? 0)) with true by lia. reflexivity.
Qed.
(** As strings the same mimetypes are listed, in the same order, if all of them are
    strings; otherwise those before the first one that is not, and an exception. *)
Theorem C103_strings : forall A ss, (Forall2 (fun s m => utf8_encode s = Some m) ss (iter_mimetypes A) -> iter_mimetypes_unicode A = (ss, None)) /\
  (iter_mimetypes_unicode A = (ss, None) -> Forall2 (fun s m => utf8_encode s = Some m) ss (iter_mimetypes A)) /\
  (forall l b r, iter_mimetypes A = l ++ b :: r -> Forall2 (fun s m => utf8_encode s = Some m) ss l -> (forall s, utf8_encode s <> Some b) -> iter_mimetypes_unicode A = (ss, Some UnicodeErr)).
Proof.
  intros A ss. unfold iter_mimetypes, iter_mimetypes_unicode. generalize (ml_types (fa_mimes A)) as l. intro l. split; [|split].
  - intro F. induction F as [|s m ss l E F IH]; [reflexivity|]. cbn [decode_each]. unfold decode. rewrite (decode_encode _ _ E), IH. reflexivity.
  - revert ss. induction l as [|b l IH]; intros ss E; cbn [decode_each] in E; [injection E as <-; constructor|].
    unfold decode in E. destruct (utf8_decode b) as [s|] eqn:ED; [|discriminate E]. destruct (decode_each l) as [t [x|]] eqn:EL; [discriminate E|]. injection E as <-.
    constructor; [apply encode_decode; exact ED|apply IH; reflexivity].
  - intros q b r -> F NB. induction F as [|s m ss q E F IH]; cbn [app decode_each]; unfold decode.
    + destruct (utf8_decode b) as [s|] eqn:ED; [|reflexivity]. destruct (NB s). apply encode_decode. exact ED.
    + rewrite (decode_encode _ _ E), IH. reflexivity.
Qed.
(** With the histories of C65: the archive that is opened from the file after the
    last flush. *)
Theorem C103_history_partial : forall fuel D (dc : decomp D) new_decomp K (new_comp : ctype -> res K) comp flush depth kd Stream H (md5 : H) feed digest truncate process_blob rounds,
  codec_ok dc new_decomp new_comp comp flush Stream -> hash_ok feed digest ->
  forall r u0 sc0 sp0 n A ops A' w sc sp, 0 <= r -> zlen u0 = 16 -> fresh_strategy sc0 -> fresh_strategy sp0 ->
  init_new fuel new_comp comp flush depth (Some r) u0 sc0 sp0 = Ok A ->
  vruns fuel dc new_decomp new_comp comp flush depth kd Stream md5 feed digest (Some r) truncate process_blob rounds n A empty_view (ops ++ [VFlush]) A' -> vadds ops <= n ->
  exists B, open_zim fuel dc new_decomp new_comp comp flush depth kd (fa_file A') w sc sp = Ok B /\
  forall u p, ~ listing (fa_zim B) u -> vsteps empty_view ops u = Some p ->
  exists e, get_entry_by_full_url (fa_zim B) u = Ok e /\
  match pg_body p with
  | Data m _ => In m (iter_mimetypes B) /\ forall s, utf8_encode s = Some m -> get_mimetype_of_entry B e = Ok s
  | Link _ => get_mimetype_of_entry B e = Ok REDIRECT_TYPE
  end.
Proof.
  intros fuel D dc new_decomp K new_comp comp flush depth kd Stream H md5 feed digest truncate process_blob rounds CD HO r u0 sc0 sp0 n A ops A' w sc sp Hr HU F1 F2 IN R Z.
  destruct (C65_new_archive fuel dc new_decomp new_comp comp flush depth kd Stream md5 feed digest truncate process_blob rounds CD HO r u0 sc0 sp0 n A ops A' w sc sp Hr HU F1 F2 IN R Z) as (_ & _ & B & E & _ & SH).
  exists B. split; [exact E|]. intros u p NL EV. destruct (C103_table fuel dc new_decomp kd B _ u p SH NL EV) as (e & G & Q). exists e. split; [exact G|].
  destruct (pg_body p); [|exact Q]. destruct Q as (Q1 & Q2). split; [exact Q1|]. intros s ES. exact (proj1 (Q2 s ES)).
Qed.
(** A case that meets the hypotheses: the history of C65. *)
Example C103_example : exists A', vend_of sample_created = Ok A' /\ exists B, sample_open (fa_file A') false sample_simple sample_simple = Ok B /\
  (exists e, get_entry_by_full_url (fa_zim B) [77; 120] = Ok e /\ get_mimetype_of_entry B e = Ok [110]) /\
  (exists e, get_entry_by_full_url (fa_zim B) [67; 121] = Ok e /\ get_mimetype_of_entry B e = Ok REDIRECT_TYPE) /\
  In [x6d] (iter_mimetypes B) /\ In [x6e] (iter_mimetypes B).
Proof.
  destruct (vend_of_ok sample_created sample_vend_works) as (A & A' & E1 & E2 & R). exists A'. split; [exact E2|]. destruct sample_zops_ok as (_ & _ & _ & FS & FM).
  destruct (C103_history_partial sample_fuel _ passthrough plain_new _ plain_new_comp plain_comp plain_flush 6 KRemembering plain_stream _ 0 sample_feed sample_digest true (fun _ => ret tt) 3 plain_codec sample_hash
    50 sample_uuid sample_simple sample_mime 100 A sample_vops A' false sample_simple sample_simple ltac:(lia) eq_refl FS FM E1 R ltac:(vm_compute; discriminate)) as (B & E & SH).
  exists B. split; [exact E|].
  assert (S : forall u p, free_b u = true -> vsteps empty_view sample_vops u = Some p -> exists e, get_entry_by_full_url (fa_zim B) u = Ok e /\
    match pg_body p with Data m _ => In m (iter_mimetypes B) /\ forall s, utf8_encode s = Some m -> get_mimetype_of_entry B e = Ok s | Link _ => get_mimetype_of_entry B e = Ok REDIRECT_TYPE end)
    by (intros u p F; exact (SH u p (free_ok _ _ F))).
  pose proof (fun p => S [77; 120] p eq_refl) as S1. pose proof (fun p => S [67; 121] p eq_refl) as S2. pose proof (fun p => S [67; 98] p eq_refl) as S3. rewrite sample_table in S1, S2, S3.
  destruct (S1 _ eq_refl) as (e1 & G1 & I1 & Q1). destruct (S2 _ eq_refl) as (e2 & G2 & Q2). destruct (S3 _ eq_refl) as (e3 & _ & I3 & _).
  split; [exists e1; split; [exact G1|apply Q1; reflexivity]|]. split; [exists e2; split; [exact G2|exact Q2]|]. split; [exact I3|exact I1].
Qed.

Print Assumptions C103_table.
Print Assumptions C103_numbers.
Print Assumptions C103_strings.
Print Assumptions C103_history_partial.
Print Assumptions C103_example.
