(** Property theorems C09, C10, C11 and C54: entries on disk. *)
From Coq Require Import List ZArith Bool.
From Verif Require Import Base Utf8 Entry EntrySpec EntryProofs.
Import ListNotations.
Open Scope Z_scope.

(** C09.  Whatever [to_bytes] produces is parsed back to the same entry,
    exactly those bytes are consumed, whatever follows in the file.  NUL
    characters in url or title cannot be represented by the format
    (see [C09_nul_not_representable]). *)
Theorem C09_entry_roundtrip : forall e b rest,
  entry_to_bytes e = Ok b ->
  ~ In 0 (e_url e) -> (forall t, e_title e = Some t -> ~ In 0 t) -> kind_consistent e ->
  entry_from_file (b ++ rest) = Ok (e, rest).
Proof. exact entry_roundtrip_any. Qed.
Print Assumptions C09_entry_roundtrip.

(** Serialisation succeeds for every entry the format can represent. *)
Theorem C09_entry_serialisable : forall e, entry_storable e -> kind_consistent e -> forall rest,
  exists b, entry_to_bytes e = Ok b /\ entry_from_file (b ++ rest) = Ok (e, rest).
Proof. intros e H1 H2 rest. exact (entry_roundtrip e rest H1 H2). Qed.
Print Assumptions C09_entry_serialisable.

(** The result of a parse never depends on what follows, for any file. *)
Theorem C09_parse_is_local : forall f e r x,
  entry_from_file f = Ok (e, r) -> entry_from_file (f ++ x) = Ok (e, r ++ x).
Proof. exact entry_from_file_local. Qed.
Print Assumptions C09_parse_is_local.

(** Reading at the offset at which an entry's bytes are stored. *)
Theorem C09_entry_at_offset : forall e b file off, entry_storable e -> kind_consistent e ->
  entry_to_bytes e = Ok b -> 0 <= off -> fread file off (zlen b) = b -> entry_at file off = Ok e.
Proof. exact entry_at_stored. Qed.
Print Assumptions C09_entry_at_offset.

Definition ex_content : entry :=
  mkEntry 3 [67] [97; 228; 8364] (Some [84; 128512]) (Content 7 70000).
Definition ex_redirect : entry := mkEntry 65535 [67] [98] (Some []) (Redirect 4294967295).

Example C09_nontrivial :
  is_ok (entry_to_bytes ex_content) = true /\ is_ok (entry_to_bytes ex_redirect) = true /\
  kind_consistent ex_content /\ kind_consistent ex_redirect /\
  ~ In 0 (e_url ex_content) /\ (forall t, e_title ex_content = Some t -> ~ In 0 t).
Proof.
  split; [reflexivity|]. split; [reflexivity|]. split; [discriminate|]. split; [reflexivity|].
  split; [cbn; intuition discriminate|]. intros t H. injection H as <-. cbn. intuition discriminate.
Qed.

(** A NUL in the url: the entry is written but read back differently. *)
Example C09_nul_not_representable : exists e b,
  entry_to_bytes e = Ok b /\ kind_consistent e /\ exists e' r, entry_from_file b = Ok (e', r) /\ e' <> e.
Proof.
  exists (mkEntry 0 [67] [97; 0; 98] (Some [99]) (Content 0 0)). eexists.
  split; [reflexivity|]. split; [discriminate|]. eexists. eexists. split; [reflexivity|]. discriminate.
Qed.

(** C10.  For every entry that can be serialised at all, the reported size is
    the number of bytes written. *)
Theorem C10_entry_size_exact : forall e b, entry_to_bytes e = Ok b -> entry_disk_size e = Ok (zlen b).
Proof. exact entry_size_exact. Qed.
Print Assumptions C10_entry_size_exact.

Example C10_nontrivial : entry_disk_size ex_content = Ok 29 /\ entry_disk_size ex_redirect = Ok 15.
Proof. split; reflexivity. Qed.

(** C11, full statement: every content entry that is written is read back as
    a content entry, every redirect as a redirect. *)
Definition C11_full_statement : Prop := forall e b rest e' r,
  entry_to_bytes e = Ok b -> entry_from_file (b ++ rest) = Ok (e', r) ->
  (exists c n, e_kind e = Content c n) -> (exists c n, e_kind e' = Content c n).

(** It is false of the code: a content entry whose mimetype index is 65535
    (a 65536th registered mimetype) is written without complaint and read back
    as a redirect. *)
Theorem C11_refuted : ~ C11_full_statement.
Proof.
  intro H.
  destruct (H (mkEntry 65535 [67] [97] (Some []) (Content 5 6)) _ [] _ _ eq_refl eq_refl) as (c & n & H');
    [exists 5, 6; reflexivity|discriminate H'].
Qed.
Print Assumptions C11_refuted.

(** What holds: for every mimetype index other than the reserved one.
    Missing for the full claim: index 65535. *)
Theorem C11_kind_preserved_partial : forall e rest b e' r, entry_storable e -> kind_consistent e ->
  entry_to_bytes e = Ok b -> entry_from_file (b ++ rest) = Ok (e', r) -> is_redirect e' = is_redirect e.
Proof. exact entry_kind_preserved. Qed.
Print Assumptions C11_kind_preserved_partial.

(** Whatever is parsed has a kind that agrees with its mimetype. *)
Theorem C11_parsed_kind_consistent_partial : forall f e r,
  entry_from_file f = Ok (e, r) -> kind_consistent e.
Proof. exact entry_from_file_consistent. Qed.
Print Assumptions C11_parsed_kind_consistent_partial.

(** C54, full statement: reading a NUL-terminated string ends after some
    number of loop iterations, for every file content. *)
Definition C54_full_statement : Prop := forall f, exists fuel, ruz_loop fuel f [] <> Err Diverge.

(** False of the code: at the end of the file the loop makes no progress. *)
Theorem C54_refuted : ~ C54_full_statement.
Proof. intro H. destruct (H []) as [fuel Hf]. apply Hf. apply read_until_zero_diverges. intros []. Qed.
Print Assumptions C54_refuted.

(** What holds: it ends exactly when there is a zero byte ahead, and then
    returns what precedes the first one.  Missing: truncated files. *)
Theorem C54_terminates_iff_zero_partial : forall f,
  (exists fuel s r, ruz_loop fuel f [] = Ok (s, r)) <-> In x00 f.
Proof. exact read_until_zero_terminates_iff. Qed.
Print Assumptions C54_terminates_iff_zero_partial.

Theorem C54_result_partial : forall f fuel s r, ruz_loop fuel f [] = Ok (s, r) ->
  f = s ++ x00 :: r /\ ~ In x00 s.
Proof.
  intros f fuel s r H. destruct (split_zero f) as [(a & r' & -> & Hn)|Hn].
  - destruct (Nat.lt_ge_cases (length a) fuel) as [L|L].
    + rewrite ruz_loop_zero in H by assumption. injection H as <- <-. auto.
    + exfalso. revert H L. generalize (@nil byte) as acc. revert fuel Hn.
      induction a as [|c a IH]; intros fuel Hn acc H L.
      * destruct fuel; [discriminate|]. inversion L.
      * destruct fuel; [discriminate|]. cbn [app ruz_loop] in H. destruct (Byte.eqb c x00) eqn:E.
        { apply eqb_x00 in E. subst. cbn in Hn. tauto. }
        apply (IH fuel) in H; [assumption| cbn in Hn; tauto | cbn in L; apply le_S_n; assumption].
  - rewrite ruz_loop_eof in H by assumption. discriminate.
Qed.
Print Assumptions C54_result_partial.
