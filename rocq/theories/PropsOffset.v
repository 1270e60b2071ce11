(** C90: an archive that lies behind other data in its file is read as if it were
    alone in the file. *)
From Coq Require Import List ZArith Bool Lia.
From Coq Require Import ZifyBool ZifyNat.
From Coq Require Import Strings.Byte.
From Verif Require Import Base BaseProofs Utf8 Dict Infobyte Header MimeTypeList PointerList SpaceAllocator Entry Reader Cluster ClusterWrapper ClusterSpec ClusterWrapperSpec ClusterWrapperProofs
  Archive ArchiveSpec ArchiveCluster ArchiveClusterSpec CompressionStrategy CompressionStrategySpec OperationBuffer EntryObject Flush FlushSpec FlushTailProofs FlushHistorySpec ViewSpec
  PropsArchiveCluster PropsCompressionStrategy PropsFlush PropsView PropsChecksum Offset OffsetProofs.
Import ListNotations.
Open Scope Z_scope.

Section Reading.
Variable fuel : nat.
Context {D : Type}.
Variable dc : decomp D.
Variable new_decomp : ctype -> res D.
Context {K : Type}.
Variable new_comp : ctype -> res K.
Variable comp : K -> bytes -> res (bytes * K).
Variable flush : K -> res bytes.
Variable depth : nat.
Variable kd : ckind.
(** [Zim(f, mode="r")] and [Zim(f, offset=base, mode="r")]. *)
Notation opens f := (open_zim fuel dc new_decomp new_comp comp flush depth kd f false).
Notation opens_at base := (oopen base fuel dc new_decomp kd).

(** What a reader sees of the archive [B], that starts at [base] of its file, is
    what it sees of [A], that starts at 0: the header, the mimetypes, the main page,
    the lists of titles, each look-up and each iteration with its result or its
    exception, and the contents of each blob. *)
Definition reads_as (base : Z) (B A : farchive) : Prop :=
  fa_hdr B = fa_hdr A /\ ml_types (fa_mimes B) = ml_types (fa_mimes A) /\
  z_etpl (fa_zim B) = z_etpl (fa_zim A) /\ z_atpl (fa_zim B) = z_atpl (fa_zim A) /\
  oget_mainpage_entry base (fa_zim B) = get_mainpage_entry (fa_zim A) /\
  (forall u, oget_entry_by_full_url base (fa_zim B) u = get_entry_by_full_url (fa_zim A) u) /\
  (forall u, ohas_entry_for_full_url base (fa_zim B) u = has_entry_for_full_url (fa_zim A) u) /\
  (forall i, oget_entry_by_url_index base (fa_zim B) i = get_entry_by_url_index (fa_zim A) i) /\
  (forall a b, oiter_entries base (fa_zim B) a b = iter_entries (fa_zim A) a b) /\
  (forall a b, oiter_articles base (fa_zim B) a b = iter_articles (fa_zim A) a b) /\
  (forall n e, oresolve base n (fa_zim B) e = resolve n (fa_zim A) e) /\
  (forall i j, read_blob_of fuel dc new_decomp kd (fa_arch A) i j <> Err Diverge ->
     oread_blob_of base fuel dc new_decomp kd (fa_arch B) i j = read_blob_of fuel dc new_decomp kd (fa_arch A) i j).

Lemma opened_pointers : forall f sc sp A, opens f sc sp = Ok A -> Forall (fun q => 0 <= q) (pl_ptrs (ca_ptrs (fa_arch A))).
Proof.
  intros f sc sp A E. unfold open_zim in E.
  destruct (header_from_file f 0) as [h|x]; cbn [bind] in E; [|discriminate E].
  destruct (mt_from_file (zskip (h_mime_pos h) f)) as [m|x]; cbn [bind] in E; [|discriminate E].
  destruct (ptrs_from_file 8 f (h_entry_count h) (h_url_pos h)) as [ul|x]; cbn [bind] in E; [|discriminate E].
  destruct (ptrs_from_file 8 f (h_cluster_count h) (h_cluster_pos h)) as [cl|x] eqn:Ec; cbn [bind] in E; [|discriminate E].
  cbn zeta in E. match type of E with (do et <- ?m ;; _) = _ => destruct m; cbn [bind] in E; [|discriminate E] end.
  match type of E with (do et <- ?m ;; _) = _ => destruct m; cbn [bind] in E; [|discriminate E] end.
  match type of E with (do et <- ?m ;; _) = _ => destruct m; cbn [bind] in E; [|discriminate E] end.
  rewrite orb_true_r in E. injection E as E. subst A. exact (ptrs_nonneg _ _ _ _ _ Ec).
Qed.

(** Whatever precedes the archive, and whatever the archive is, if it has format
    version 6.3 or newer or lists the titles of its entries in an entry: opening it
    and reading from it behave as for the same archive alone in a file.
    ([Diverge] stands for a loop of the model that was cut off.) *)
Theorem C90_reading_partial : forall p f sc sp A, opens f sc sp = Ok A ->
  (6 < h_major (fa_hdr A) \/ h_major (fa_hdr A) = 6 /\ 3 <= h_minor (fa_hdr A)) \/ has_entry_for_full_url (fa_zim A) URL_ENTRY_TITLE_INDEX = Ok true ->
  exists B, opens_at (zlen p) (p ++ f) sc sp = Ok B /\ reads_as (zlen p) B A.
Proof.
  intros p f sc sp A E V. exists (fmoved p A). split.
  - rewrite (open_moved p fuel dc new_decomp kd new_comp comp flush depth f sc sp).
    + rewrite E. reflexivity.
    + rewrite E. discriminate.
    + destruct V as [V|V]; [left|right; exists A; split; assumption].
      intros h Eh. assert (EA : fa_hdr A = h).
      { clear V. unfold open_zim in E. rewrite Eh in E. cbn [bind] in E.
        destruct (mt_from_file (zskip (h_mime_pos h) f)) as [m|x]; cbn [bind] in E; [|discriminate E].
        destruct (ptrs_from_file 8 f (h_entry_count h) (h_url_pos h)) as [ul|x]; cbn [bind] in E; [|discriminate E].
        destruct (ptrs_from_file 8 f (h_cluster_count h) (h_cluster_pos h)) as [cl|x] eqn:Ec; cbn [bind] in E; [|discriminate E].
        cbn zeta in E. match type of E with (do et <- ?m ;; _) = _ => destruct m; cbn [bind] in E; [|discriminate E] end.
        match type of E with (do et <- ?m ;; _) = _ => destruct m; cbn [bind] in E; [|discriminate E] end.
        match type of E with (do et <- ?m ;; _) = _ => destruct m; cbn [bind] in E; [|discriminate E] end.
        rewrite orb_true_r in E. injection E as E. subst A. reflexivity. }
      rewrite EA in V. unfold recent. lia.
  - unfold reads_as. change (fa_zim (fmoved p A)) with (moved p (fa_zim A)). change (fa_arch (fmoved p A)) with (cmoved p (fa_arch A)).
    split; [reflexivity|]. split; [reflexivity|]. split; [reflexivity|]. split; [reflexivity|]. split; [apply main_moved|].
    split; [intros; apply by_url_moved|]. split; [intros; apply has_moved|]. split; [intros; apply by_index_moved|].
    split; [intros; apply entries_moved|]. split; [intros; apply articles_moved|]. split; [intros; apply resolve_moved|].
    intros i j ND. apply blob_moved; [exact (opened_pointers _ _ _ _ E)|exact ND].
Qed.

(** What cannot be opened alone cannot be opened behind other data, and the
    exception is the same. *)
Theorem C90_failing_partial : forall p f sc sp e, opens f sc sp = Err e -> e <> Diverge ->
  (forall h, header_from_file f 0 = Ok h -> 6 < h_major h \/ h_major h = 6 /\ 3 <= h_minor h) ->
  opens_at (zlen p) (p ++ f) sc sp = Err e.
Proof.
  intros p f sc sp e E NE V. rewrite (open_moved p fuel dc new_decomp kd new_comp comp flush depth f sc sp).
  - rewrite E. reflexivity.
  - rewrite E. congruence.
  - left. intros h Eh. specialize (V h Eh). unfold recent. lia.
Qed.
End Reading.
Print Assumptions C90_reading_partial.
Print Assumptions C90_failing_partial.

(** ** The property as stated *)

(** Reading includes the checksum: the one that is stored, and the one that is
    calculated. *)
Definition checksums_as {H} (md5 : H) feed digest (B A : farchive) : Prop :=
  get_checksum B = get_checksum A /\ calculate_checksum md5 feed digest B = calculate_checksum md5 feed digest A.
Definition C90_full_statement : Prop :=
  forall fuel D (dc : decomp D) new_decomp K (new_comp : ctype -> res K) comp flush depth kd H (md5 : H) feed digest,
  hash_ok feed digest ->
  forall p f sc sp A, open_zim fuel dc new_decomp new_comp comp flush depth kd f false sc sp = Ok A ->
  exists B, oopen (zlen p) fuel dc new_decomp kd (p ++ f) sc sp = Ok B /\ reads_as fuel dc new_decomp kd (zlen p) B A /\ checksums_as md5 feed digest B A.

(** The sample archive of C65 behind twenty bytes. *)
Definition junk : bytes := repeat x41 20.
Definition alone (f : bytes) : res farchive := open_zim sample_fuel passthrough plain_new plain_new_comp plain_comp plain_flush 6 KRemembering f false sample_simple sample_simple.
Definition behind (base : Z) (f : bytes) : res farchive := oopen base sample_fuel passthrough plain_new KRemembering f sample_simple sample_simple.
Definition same_bytes (a b : bytes) : bool := if list_eq_dec Byte.byte_eq_dec a b then true else false.
Definition stored_differs (r : res farchive) : bool :=
  match r with
  | Ok X => match alone (fa_file X), behind 20 (junk ++ fa_file X) with
            | Ok A, Ok B => negb (same_bytes (get_checksum B) (get_checksum A)) && same_bytes (get_checksum A) (match calculate_checksum 0 sample_feed sample_digest A with Ok c => c | Err _ => [] end)
            | _, _ => false
            end
  | Err _ => false
  end.
Lemma sample_checksum_differs : stored_differs (vend_of sample_created) = true.
Proof. vm_compute. reflexivity. Qed.
Theorem C90_refuted : ~ C90_full_statement.
Proof.
  intros F. pose proof sample_checksum_differs as Q. unfold stored_differs in Q. destruct (vend_of sample_created) as [X|x]; [|discriminate Q].
  destruct (alone (fa_file X)) as [A|x] eqn:EA; [|discriminate Q].
  destruct (F sample_fuel _ passthrough plain_new _ plain_new_comp plain_comp plain_flush 6%nat KRemembering _ 0 sample_feed sample_digest sample_hash junk (fa_file X) sample_simple sample_simple A EA)
    as (B & EB & _ & EC & _).
  change (behind 20 (junk ++ fa_file X) = Ok B) in EB. rewrite EB in Q. rewrite EC in Q. unfold same_bytes at 1 in Q.
  destruct (list_eq_dec Byte.byte_eq_dec (get_checksum A) (get_checksum A)); [discriminate Q|congruence].
Qed.
Print Assumptions C90_refuted.

(** The list of the titles of all entries is looked for in the wrong place, if its
    place is given by the header: the sample archive with format version 6.2, and
    with the list behind it. *)
Definition older (f : bytes) : res bytes :=
  do h <- header_from_file f 0 ;;
  do b <- header_to_bytes (mkHeader (h_magic h) 6 2 (h_uuid h) (h_entry_count h) (h_cluster_count h) (h_url_pos h) (zlen f) (h_cluster_pos h) (h_mime_pos h) (h_main_page h) (h_layout_page h) (h_checksum_pos h)) ;;
  do t <- ptrs_to_bytes 4 [0; 1; 2; 3; 4; 5] ;;
  Ok (b ++ zskip 80 f ++ t).
Definition title_ptrs (r : res farchive) : option (list Z) := match r with Ok A => match z_etpl (fa_zim A) with Some l => Some (pl_ptrs l) | None => None end | Err _ => None end.
Theorem C90_titles_refuted :
  match (do X <- vend_of sample_created ;; older (fa_file X)) with
  | Ok f => title_ptrs (alone f) = Some [0; 1; 2; 3; 4; 5] /\ title_ptrs (behind 20 (junk ++ f)) <> Some [0; 1; 2; 3; 4; 5] /\
            match behind 20 (junk ++ f) with Ok _ => True | Err _ => False end
  | Err _ => False
  end.
Proof. vm_compute. split; [reflexivity|]. split; [discriminate|exact I]. Qed.

(** [Zim.open(path, offset=...)] does not use its argument: behind eighty zero
    bytes, the archive that is opened has no entries. *)
Definition zeros : bytes := repeat x00 80.
Definition found (base : Z) (r : res farchive) : res (list ustr) := do B <- r ;; do l <- oiter_entries base (fa_zim B) None None ;; Ok (map full_url l).
Theorem C90_open_refuted :
  match vend_of sample_created with
  | Ok X => found 0 (open_at sample_fuel passthrough plain_new KRemembering 80 (zeros ++ fa_file X) sample_simple sample_simple) = Ok [] /\
            found 80 (behind 80 (zeros ++ fa_file X)) = Ok [[67; 98]; [67; 121]; [67; 122]; [77; 120]; URL_MAINPAGE_REDIRECT; URL_ARTICLE_TITLE_INDEX]
  | Err _ => False
  end.
Proof. vm_compute. split; reflexivity. Qed.

(** An update behind other data: the header is changed and written.  Alone in its
    file, the archive is then complete; behind twenty bytes it cannot be opened any
    more. *)
Definition updated (base : Z) (f : bytes) : res bytes :=
  do A <- oload base sample_fuel passthrough plain_new KRemembering f true sample_simple sample_simple ;;
  let '(r, A) := (let* _ := fa_assign FLayoutPage (PInt 0) in oflush_end base 0 sample_feed sample_digest true) (fst A) in
  do _ <- r ;; Ok (fa_file A).
Definition updated_whole (f : bytes) : res bytes :=
  do A <- open_zim sample_fuel passthrough plain_new plain_new_comp plain_comp plain_flush 6 KRemembering f true sample_simple sample_simple ;;
  let '(r, A) := (let* _ := fa_assign FLayoutPage (PInt 0) in
    zim_flush sample_fuel passthrough plain_new plain_new_comp plain_comp plain_flush 6 KRemembering 0 sample_feed sample_digest (Some 100) true (fun _ => ret tt) 3) A in
  do _ <- r ;; Ok (fa_file A).
Definition pages (base : Z) (f : bytes) : res (list ustr) := found base (behind base f).
Theorem C90_update_refuted :
  match vend_of sample_created with
  | Ok X =>
      (* at offset 0, this is the whole of [flush] *)
      updated 0 (fa_file X) = updated_whole (fa_file X) /\
      (exists f', updated 0 (fa_file X) = Ok f' /\ pages 0 f' = pages 0 (fa_file X)) /\
      pages 20 (junk ++ fa_file X) = pages 0 (fa_file X) /\
      exists f', updated 20 (junk ++ fa_file X) = Ok f' /\ pages 20 f' = Err StructError
  | Err _ => False
  end.
Proof.
  assert (Q : match vend_of sample_created with
    | Ok X => match updated 0 (fa_file X), updated_whole (fa_file X), updated 20 (junk ++ fa_file X) with
              | Ok a, Ok b, Ok c => same_bytes a b = true /\ pages 0 a = pages 0 (fa_file X) /\ pages 20 (junk ++ fa_file X) = pages 0 (fa_file X) /\ pages 20 c = Err StructError
              | _, _, _ => False end
    | Err _ => False end) by (vm_compute; repeat split).
  destruct (vend_of sample_created) as [X|x]; [|exact Q].
  destruct (updated 0 (fa_file X)) as [a|x]; [|elim Q]. destruct (updated_whole (fa_file X)) as [b|x]; [|elim Q].
  destruct (updated 20 (junk ++ fa_file X)) as [c|x]; [|elim Q]. destruct Q as (Q1 & Q2 & Q3 & Q4).
  split. { unfold same_bytes in Q1. destruct (list_eq_dec Byte.byte_eq_dec a b) as [E|]; [rewrite E; reflexivity|discriminate Q1]. }
  split; [exists a; split; [reflexivity|exact Q2]|]. split; [exact Q3|]. exists c. split; [reflexivity|exact Q4].
Qed.

(** The theorems apply to the sample archive. *)
Example C90_example : exists X A B, vend_of sample_created = Ok X /\ alone (fa_file X) = Ok A /\ behind 20 (junk ++ fa_file X) = Ok B /\
  reads_as sample_fuel passthrough plain_new KRemembering 20 B A /\
  pages 20 (junk ++ fa_file X) = Ok [[67; 98]; [67; 121]; [67; 122]; [77; 120]; URL_MAINPAGE_REDIRECT; URL_ARTICLE_TITLE_INDEX].
Proof.
  assert (Q : match vend_of sample_created with
    | Ok X => match alone (fa_file X) with
              | Ok A => h_major (fa_hdr A) = 6 /\ h_minor (fa_hdr A) = 3 /\ pages 20 (junk ++ fa_file X) = Ok [[67; 98]; [67; 121]; [67; 122]; [77; 120]; URL_MAINPAGE_REDIRECT; URL_ARTICLE_TITLE_INDEX]
              | Err _ => False end
    | Err _ => False end) by (vm_compute; repeat split).
  destruct (vend_of sample_created) as [X|x]; [|elim Q]. destruct (alone (fa_file X)) as [A|x] eqn:EA; [|elim Q]. destruct Q as (Q1 & Q2 & Q3).
  destruct (C90_reading_partial sample_fuel passthrough plain_new plain_new_comp plain_comp plain_flush 6 KRemembering junk (fa_file X) sample_simple sample_simple A EA ltac:(left; right; lia)) as (B & EB & R).
  exists X, A, B. split; [reflexivity|]. split; [exact EA|]. split; [exact EB|]. split; [exact R|exact Q3].
Qed.
