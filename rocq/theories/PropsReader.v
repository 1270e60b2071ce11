(** Property theorem C24: the streaming reader. *)
From Coq Require Import List ZArith Bool Lia.
From Verif Require Import Base BaseProofs Reader ReaderSpec ReaderProofs Decompressors DecompressorsSpec DecompressorsProofs.
Import ListNotations.
Open Scope Z_scope.

(** C24, full statement: over any decompressor that meets the documented
    contract, every sequence of calls -- reads of size zero included -- is
    answered with the corresponding parts of the stream. *)
Definition C24_full_statement : Prop :=
  forall D (dc : decomp D) f base C J o Rep d0 n,
    contract dc J Rep -> contract_end dc J Rep -> 0 <= base -> zskip base f = C ++ J -> Rep d0 C o [] ->
    0 <= n -> exists x r, read dc f n 0 (reader_new d0 base) = (Ok x, r) /\ zlen x <= n.

(** False: reading zero bytes raises IOError when the decompressor needs input. *)
Theorem C24_refuted : ~ C24_full_statement.
Proof.
  intro H.
  destruct (H _ (zlib_decomp toy_zlib) [x61; xff] 0 [x61; xff] [] [x61] (zlib_rep toy_zlib [] toy_zlib_rep) ((false, [], []), []) 0) as (x & r & E & _).
  - apply zlib_meets_contract, toy_zlib_contract.
  - apply zlib_meets_contract_end, toy_zlib_contract.
  - lia.
  - reflexivity.
  - split; [reflexivity|]. split; [exists []; reflexivity|]. split; [reflexivity|]. exists [x61; xff]. cbn.
    split; [|reflexivity]. split; [reflexivity|]. split; [|reflexivity]. repeat constructor. discriminate.
  - lia.
  - vm_compute in E. discriminate E.
Qed.
Print Assumptions C24_refuted.

(** Otherwise it holds: for every file, every stream in it, every decompressor
    meeting the contract and every sequence of calls (reads of at least one
    byte, any buffer size, the file moved by others in between), all answers
    are the expected parts of the stream.  Missing: reads of size zero. *)
Theorem C24_reader_returns_stream_partial :
  forall D (dc : decomp D) f base C J o Rep d0 calls,
    contract dc J Rep -> contract_end dc J Rep -> 0 <= base -> zskip base f = C ++ J -> Rep d0 C o [] ->
    all_expected dc f base true o 0 (reader_new d0 base) calls.
Proof. intros D dc f base C J o Rep d0 calls CT CE HB HF R. exact (reader_spec dc f base C J o Rep true CT (fun _ => CE) HB HF d0 R calls). Qed.
Print Assumptions C24_reader_returns_stream_partial.

(** Calls that do not try to read beyond the end need less of the decompressor. *)
Theorem C24_reader_within_stream :
  forall D (dc : decomp D) f base C J o Rep d0 calls,
    contract dc J Rep -> 0 <= base -> zskip base f = C ++ J -> Rep d0 C o [] ->
    all_expected dc f base false o 0 (reader_new d0 base) calls.
Proof.
  intros D dc f base C J o Rep d0 calls CT HB HF R.
  exact (reader_spec dc f base C J o Rep false CT (fun (X : false = true) => False_ind _ (eq_ind false (fun b : bool => if b then False else True) Logic.I true X)) HB HF d0 R calls).
Qed.
Print Assumptions C24_reader_within_stream.

(** Reading to the end tells the exact compressed size. *)
Theorem C24_compressed_size :
  forall D (dc : decomp D) f base C J o Rep d0 fuel bs,
    contract dc J Rep -> contract_end dc J Rep -> 0 <= base -> zskip base f = C ++ J -> Rep d0 C o [] ->
    1 <= bs -> zlen o + 2 <= Z.of_nat fuel ->
    exists l r', iter_read dc f fuel (-1) bs (reader_new d0 base) = (Ok l, r') /\ concat l = o /\
      total_compressed_size dc r' = Ok (zlen C).
Proof.
  intros D dc f base C J o Rep d0 fuel bs CT CE HB HF R Hb Hf.
  exact (total_size_ok dc f base C J o Rep true CT (fun _ => CE) HB HF d0 fuel bs eq_refl R Hb Hf).
Qed.
Print Assumptions C24_compressed_size.

(** The passthrough decompressor: the stream is the rest of the file. *)
Theorem C24_passthrough : forall f base calls, 0 <= base ->
  all_expected passthrough f base false (zskip base f) 0 (reader_new [] base) calls.
Proof.
  intros f base calls HB. eapply C24_reader_within_stream with (C := zskip base f) (J := []).
  - apply passthrough_contract.
  - exact HB.
  - symmetry. apply app_nil_r.
  - split; reflexivity.
Qed.
Print Assumptions C24_passthrough.

(** It never reports an end: reading beyond the end of the file raises IOError. *)
Theorem C24_passthrough_no_end : exists f r,
  iter_read passthrough f 10 (-1) 4096 (reader_new [] 0) = (Err IOErr, r) /\ f <> [].
Proof. exists [x61]. eexists. split; [vm_compute; reflexivity|discriminate]. Qed.
Print Assumptions C24_passthrough_no_end.

(** The zlib wrapper over any zlib object that meets its documentation. *)
Theorem C24_zlib_partial : forall S (zo : zlibobj S) f base C J o IRep d0 calls,
  zlib_contract zo J IRep -> zl_eof zo d0 = false -> zl_tail zo d0 = [] -> IRep d0 C o [] ->
  0 <= base -> zskip base f = C ++ J ->
  all_expected (zlib_decomp zo) f base true o 0 (reader_new (d0, []) base) calls.
Proof.
  intros S zo f base C J o IRep d0 calls ZC E T R HB HF.
  eapply C24_reader_returns_stream_partial; eauto.
  - apply zlib_meets_contract. exact ZC.
  - apply zlib_meets_contract_end. exact ZC.
  - split; [reflexivity|]. split; [exists J; reflexivity|]. split; [reflexivity|]. exists C. rewrite E, T, app_nil_r. auto.
Qed.
Print Assumptions C24_zlib_partial.

(** The zstandard wrapper, for calls that stay within the stream. *)
Theorem C24_zstd_partial : forall S (zo : zstdobj S) f base C J o IRep d0 calls,
  zstd_contract zo J IRep -> IRep d0 C o [] -> 0 <= base -> zskip base f = C ++ J ->
  all_expected (zstd_decomp zo) f base false o 0 (reader_new (d0, []) base) calls.
Proof.
  intros S zo f base C J o IRep d0 calls SC R HB HF.
  eapply C24_reader_within_stream; eauto.
  - apply zstd_meets_contract. exact SC.
  - exists o. auto.
Qed.
Print Assumptions C24_zstd_partial.

(** Reading a zstandard stream to its end can fail although the data is
    intact: the wrapper asks for input after the end, so when the last bytes
    produce no output the reader goes on reading what follows the stream and
    feeds it to the finished object (or runs into the end of the file). *)
Theorem C24_zstd_end_refuted : exists f r, zstd_contract toy_zstd [x62] toy_zstd_rep /\
  toy_zstd_rep (false, []) [x61; xff] [x61] [] /\ f = [x61; xff] ++ [x62] /\
  iter_read (zstd_decomp toy_zstd) f 10 (-1) 1 (reader_new ((false, []), []) 0) = (Err CompressionErr, r).
Proof.
  exists [x61; xff; x62]. eexists. split; [apply toy_zstd_contract|]. split.
  - cbn. split; [reflexivity|]. split; [|reflexivity]. repeat constructor. discriminate.
  - split; [reflexivity|]. vm_compute. reflexivity.
Qed.
Print Assumptions C24_zstd_end_refuted.

(** The contracts are met by a small library object; a run. *)
Example C24_nontrivial :
  zlib_contract toy_zlib [x62; x62] toy_zlib_rep /\ toy_zlib_rep (false, [], []) [x61; x63; x64; xff] [x61; x63; x64] [] /\
  let f := [x00; x61; x63; x64; xff; x62; x62] in
  let r0 := reader_new ((false, [], []), []) 1 in
  let p := perform (zlib_decomp toy_zlib) f 1 in
  fst (p (CRead 1 2) r0) = ABytes [x61] /\
  fst (p (CReadN 5) (snd (p (CReseek 0) (snd (p (CSkip 1) r0))))) = ABytes [x63; x64].
Proof.
  split; [apply toy_zlib_contract|]. split.
  - cbn. split; [reflexivity|]. split; [|reflexivity]. repeat constructor; discriminate.
  - vm_compute. auto.
Qed.
