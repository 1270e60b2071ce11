(** Properties C43 (writes and removals of entries, whatever their outcome) and C86. *)
From Coq Require Import List ZArith Bool Lia.
From Verif Require Import Base Utf8 Entry EntrySpec PointerList SpaceAllocator SpaceAllocatorSpec Cluster Archive ArchiveSpec
  ArchiveLaws ArchiveSafeSpec ArchiveSafe PropsArchive.
Import ListNotations.
Open Scope Z_scope.

(** ** C43 (entries): writing never clobbers live data *)
Definition C43_full_statement : Prop := forall n s0 L cs s w r s', consistent s0 L -> all_calls n s0 cs s -> write_entry n w s = (r, s') ->
  preserves (outside s (w_old_url w)) s s'.
(** Whatever [write_entry] returns or raises, if the entry can be represented
    and its url is not taken by another one: the bytes in use that hold neither
    this entry nor a redirect stay in use and keep their values. *)
Theorem C43_any_outcome_partial : forall n w s r s', sound s -> savable s w -> write_entry n w s = (r, s') ->
  sound s' /\ preserves (outside s (w_old_url w)) s s'.
Proof. intros n w s r s' H0 Hw H. destruct (save_safe n w s r s' H0 Hw H) as (H1 & H2 & _). auto. Qed.
(** Removals, of any url. *)
Theorem C43_any_removal : forall n u s r s', sound s -> remove_entry keep_blob n u s = (r, s') ->
  sound s' /\ preserves (outside s u) s s'.
Proof. intros n u s r s' H0 H. destruct (delete_safe n u s r s' H0 H) as (H1 & H2 & _). auto. Qed.

(** Refutation: "Ca" is renamed to "Cr", the url of a redirect.  When the next
    entry is added, the redirect is looked up by its url to be renumbered, the
    page is found instead, its space is given back and overwritten. *)
Definition three : zim := after (redirect 67 [114] 1) (after (article [122]) (after (article [97]) blank)).
Definition rename : went := mkWent (mkEntry 0 [67] [114] (Some [114]) (Content 0 0)) Ca None.
Definition clash : zim := after rename three.
Definition crowded : zim := snd (write_entry 3 rename three).
Lemma three_consistent : consistent three (entries three).
Proof.
  apply (add_step (after (article [122]) (after (article [97]) blank)) (redirect 67 [114] 1)); [|check_addable|vm_compute; reflexivity].
  apply (add_step (after (article [97]) blank) (article [122])); [exact one_consistent|check_addable|vm_compute; reflexivity].
Qed.
Definition overwritten : zim := snd (write_entry 3 (page 65 [97]) crowded).
Theorem C43_refuted : ~ C43_full_statement.
Proof.
  intro H. assert (A : all_calls 3 three [Save rename] crowded).
  { apply all_cons with (r := Ok tt) (s1 := crowded); [|apply all_nil]. vm_compute. reflexivity. }
  assert (E : write_entry 3 (page 65 [97]) crowded = (Ok tt, overwritten)) by (vm_compute; reflexivity).
  specialize (H _ _ _ _ _ _ _ _ three_consistent A E 200). destruct H as [_ Q].
  - assert (P : pl_ptrs (z_upl crowded) = [200; 240; 220]) by (vm_compute; reflexivity).
    unfold outside. intros p e Hp He Hk Hx. rewrite P in Hp. destruct Hp as [<-|[<-|[<-|[]]]]; vm_compute in He; injection He as <-.
    + vm_compute in Hk. destruct Hk; discriminate.
    + vm_compute in Hx. destruct Hx as [Hx _]. congruence.
    + vm_compute in Hx. destruct Hx as [Hx _]. congruence.
  - assert (X : z_alloc crowded = mkAlloc [] 256) by (vm_compute; reflexivity). rewrite X. split; [cbn; lia|]. intros (b & [] & _).
  - specialize (Q x00 eq_refl). vm_compute in Q. discriminate.
Qed.

(** ** C86: a call that fails loses nothing else *)
Definition C86_full_statement : Prop := forall n s0 L cs s, consistent s0 L -> all_calls n s0 cs s ->
  (forall p e, at_place s0 p e -> is_redirect e = false -> ~ named cs (full_url e) -> at_place s p e) /\
  (forall p e x, at_place s p e -> occupies (p, e) x -> in_use (z_alloc s) x).
(** One call: every other entry is still listed, at its place; only the numbers
    of redirect targets may differ. *)
Theorem C86_write_partial : forall n w s r s', sound s -> savable s w -> write_entry n w s = (r, s') ->
  sound s' /\ forall p e, at_place s p e -> full_url e <> w_old_url w -> survives s' p e.
Proof. intros n w s r s' H0 Hw H. destruct (save_safe n w s r s' H0 Hw H) as (H1 & _ & H2). auto. Qed.
(** Removals, of any url; redirects may go with their targets. *)
Theorem C86_remove : forall n u s r s', sound s -> remove_entry keep_blob n u s = (r, s') ->
  sound s' /\ forall p e, at_place s p e -> full_url e <> u -> is_redirect e = false -> survives s' p e.
Proof. intros n u s r s' H0 H. destruct (delete_safe n u s r s' H0 H) as (H1 & _ & H2). auto. Qed.
(** Any number of calls, each with any outcome: pages that none of them is about
    stay where they are, in space that is in use; so do all bytes in use that
    belong to no entry (the header, the clusters). *)
Theorem C86_pages_partial : forall n s cs s', sound s -> calls n s cs s' ->
  sound s' /\ forall p e, at_place s p e -> is_redirect e = false -> ~ named cs (full_url e) ->
    at_place s' p e /\ forall x, occupies (p, e) x -> in_use (z_alloc s') x.
Proof. intros n s cs s' H0 H. split; [apply (calls_spare n s cs s' H H0)|]. exact (calls_content n s cs s' H H0). Qed.
Theorem C86_other_data_partial : forall n s cs s', sound s -> calls n s cs s' ->
  preserves (no_entry s) s s' /\ forall x, in_use (z_alloc s) x -> no_entry s x -> no_entry s' x.
Proof. intros n s cs s' H0 H. destruct (calls_spare n s cs s' H H0) as (_ & H1 & H2). auto. Qed.

(** Refutation: the mimetype number 70000 is accepted by the setter, but cannot
    be stored.  Writing "Ca" with it and with a longer title raises when the space
    of the old version has been given back; the old version stays listed. *)
Definition unstorable : went := mkWent (mkEntry 70000 [67] [97] (Some [97; 97]) (Content 0 0)) Ca None.
Definition broken : zim := snd (write_entry 2 unstorable two).
Theorem C86_refuted : ~ C86_full_statement.
Proof.
  intro H. assert (A : all_calls 2 two [Save unstorable] broken).
  { apply all_cons with (r := Err StructError) (s1 := broken); [|apply all_nil]. vm_compute. reflexivity. }
  destruct (H _ _ _ _ _ two_consistent A) as [_ Q].
  assert (U : in_use (z_alloc broken) 200).
  { apply (Q 200 (w_entry (article [97]))).
    - split; [|vm_compute; reflexivity]. assert (P : pl_ptrs (z_upl broken) = [200; 220]) by (vm_compute; reflexivity). rewrite P. left. reflexivity.
    - vm_compute. split; congruence. }
  assert (X : z_alloc broken = mkAlloc [(200, 20)] 257) by (vm_compute; reflexivity).
  rewrite X in U. destruct U as [_ U]. apply U. exists (200, 20). split; [left; reflexivity|cbn; lia].
Qed.
(** The hypotheses are met: by entries that can be saved, and by calls that raise. *)
Lemma two_sound : sound two.
Proof. exact (consistent_sound _ _ two_consistent). Qed.
Ltac check_savable P := constructor;
  [ split; [cbn; unfold MIMETYPE_ID_REDIRECT; lia|split; [eexists; reflexivity|split; [split; [eexists; reflexivity|cbn; intuition discriminate]|
      split; [eexists; split; [reflexivity|split; [eexists; reflexivity|cbn; intuition discriminate]]|cbn; unfold MIMETYPE_ID_REDIRECT; lia]]]]
  | cbn; first [discriminate | reflexivity]
  | let p := fresh in let e := fresh in let Hp := fresh in let He := fresh in intros p e Hp He; rewrite P in Hp;
    repeat (destruct Hp as [<-|Hp]; [vm_compute in He; injection He as <-; vm_compute; congruence|]); destruct Hp ].
Lemma two_pointers : pl_ptrs (z_upl two) = [200; 220].
Proof. vm_compute. reflexivity. Qed.
Example savable_page : savable two (page 67 [99]).
Proof. check_savable two_pointers. Qed.
(** A redirect to an entry that does not exist is written and listed before the
    call raises; adding a page that sorts before it then raises as well, when the
    redirect is renumbered.  The theorems cover this history. *)
Definition dangling : zim := snd (perform 2 (Save (redirect 67 [99] 9)) two).
Definition further : zim := snd (perform 2 (Save (page 65 [97])) dangling).
Lemma dangling_pointers : pl_ptrs (z_upl dangling) = [200; 220; 236].
Proof. vm_compute. reflexivity. Qed.
Lemma savable_redirect : savable two (redirect 67 [99] 9).
Proof. check_savable two_pointers. Qed.
Lemma savable_after : savable dangling (page 65 [97]).
Proof. check_savable dangling_pointers. Qed.
Lemma calls_snd : forall n s c cs s', permitted s c -> calls n (snd (perform n c s)) cs s' -> calls n s (c :: cs) s'.
Proof. intros n s c cs s' Hp Hc. eapply calls_cons; [exact Hp|apply surjective_pairing|exact Hc]. Qed.
Example history_with_failure : calls 2 two [Save (redirect 67 [99] 9); Save (page 65 [97]); Delete [67; 98]; Delete [67; 120]] (snd (perform 2 (Delete [67; 120]) (snd (perform 2 (Delete [67; 98]) further)))) /\
  fst (write_entry 2 (redirect 67 [99] 9) two) = Err EntryNotFound /\ fst (write_entry 2 (page 65 [97]) dangling) = Err EntryNotFound /\
  at_place two 200 (w_entry (article [97])).
Proof.
  split; [|split; [vm_compute; reflexivity|split; [vm_compute; reflexivity|split; [rewrite two_pointers; left; reflexivity|vm_compute; reflexivity]]]].
  apply calls_snd; [exact savable_redirect|]. change (snd (perform 2 (Save (redirect 67 [99] 9)) two)) with dangling.
  apply calls_snd; [exact savable_after|]. change (snd (perform 2 (Save (page 65 [97])) dangling)) with further.
  apply calls_snd; [exact Logic.I|]. apply calls_snd; [exact Logic.I|]. apply calls_nil.
Qed.
Print Assumptions C43_any_outcome_partial.
Print Assumptions C43_any_removal.
Print Assumptions C43_refuted.
Print Assumptions C86_write_partial.
Print Assumptions C86_remove.
Print Assumptions C86_pages_partial.
Print Assumptions C86_other_data_partial.
Print Assumptions C86_refuted.
