(** C85: processors see every change of the entries. *)
From Coq Require Import List ZArith Bool Lia.
From Verif Require Import Base Utf8 Entry EntrySpec PointerList SpaceAllocator Cluster Archive ArchiveSpec ArchiveObserve ArchiveLaws
  PropsArchive Processors ProcessorsSpec ProcessorsProofs.
Import ListNotations.
Open Scope Z_scope.

(** A processor that only listens does not change what is done: the outcome of
    the call and the archive are those without it, whatever the call does. *)
Theorem C85_listening_is_harmless : forall n s l,
  (forall w, exists l', write_entry_t n w (s, l) = (fst (write_entry n w s), (snd (write_entry n w s), l'))) /\
  (forall blob u, exists l', remove_entry_t blob n u (s, l) = (fst (remove_entry blob n u s), (snd (remove_entry blob n u s), l'))).
Proof. intros n s l. split; [intro w; apply er_write|intros blob u; apply er_remove]. Qed.

(** The full claim: every change that returns is told truthfully, and the notices
    are enough to know what every look-up gives. *)
Definition C85_full_statement : Prop := forall n s L c l s' l', consistent s L -> do_change n c (s, l) = (Ok tt, (s', l')) ->
  exists l2 x, l' = l ++ l2 ++ [x] /\ announces c x /\ all_true (looked_up s) (l2 ++ [x]) /\ forall u, hear_all (looked_up s) (l2 ++ [x]) u = looked_up s' u.

(** Proved for the changes for which C37, C39 and C42 say that the archive stays
    in order: additions, edits, moves, and removals, also with the redirects to the
    entry.  Missing: renames as in the refutation below, and changes for which
    redirects go wrong (C39, C42). *)
Theorem C85_every_change_is_told_partial : forall n s L c l s' l', consistent s L -> allowed s L c -> do_change (S (S (S n))) c (s, l) = (Ok tt, (s', l')) ->
  exists l2 x, l' = l ++ l2 ++ [x] /\ announces c x /\ all_true (looked_up s) (l2 ++ [x]) /\ forall u, hear_all (looked_up s) (l2 ++ [x]) u = looked_up s' u.
Proof.
  intros n s L c l s' l' CS AL H. destruct (change_told n s L c l s' l' CS AL H) as (l2 & x & E & An & K). exists l2, x. split; [exact E|]. split; [exact An|].
  apply K. destruct CS as [(cells & <- & C) _ _ _ _]. apply shows_core. exact C.
Qed.
(** ... and for any number of them. *)
Theorem C85_picture_is_kept_partial : forall n s0 l0 s l L0, history (S (S (S n))) (s0, l0) (s, l) -> consistent s0 L0 ->
  exists l2, l = l0 ++ l2 /\ all_true (looked_up s0) l2 /\ forall u, hear_all (looked_up s0) l2 u = looked_up s u.
Proof. intros n s0 l0 s l L0 H CS. exact (history_told n _ _ H L0 CS). Qed.

(** The full claim is wrong.  Renaming "Cb" to "Ca" while there is an entry "Ca"
    returns and leaves two entries with this url; the processor is told of a move
    to a free url, although a look-up of "Ca" gave another entry before. *)
Example C85_two_entries_one_url : map full_url (entries (snd (write_entry 3 (rename_b [97]) three))) = [Ca; Ca; [67; 114]].
Proof. vm_compute. reflexivity. Qed.
Theorem C85_refuted : ~ C85_full_statement.
Proof.
  intro H. destruct (write_entry_t 3 (rename_b [97]) (three, [])) as [r [s' l']] eqn:E.
  assert (r = Ok tt) as ->.
  { assert (Q : fst (write_entry_t 3 (rename_b [97]) (three, [])) = Ok tt) by (vm_compute; reflexivity). rewrite E in Q. exact Q. }
  destruct (H 3%nat three (entries three) (Write (rename_b [97])) [] s' l' three_consistent E) as (l2 & x & El & An & T & _).
  assert (Q : all_true (looked_up three) (snd (snd (write_entry_t 3 (rename_b [97]) (three, []))))).
  { rewrite E. cbn [snd]. rewrite El. exact T. }
  revert Q. clear. intro Q. vm_compute in Q. destruct Q as (_ & _ & _ & (_ & _ & [Q|Q]) & _); discriminate.
Qed.

(** ** A case
    "Ca", "Cb" and a redirect "Cr" to "Cb": adding "Caa" renumbers the redirect,
    then "Caa" is removed again. *)
Definition grown : watched := snd (write_entry_t 3 (page 67 [97; 97]) (three, [])).
Definition shrunk : watched := snd (remove_entry_t keep_blob 3 [67; 97; 97] grown).
Definition r_to (i : Z) : entry := w_entry (redirect 67 [114] i).
Lemma grown_consistent : consistent (fst grown) (entries (fst grown)).
Proof. apply (add_step three (page 67 [97; 97])); [exact three_consistent|check_addable|vm_compute; reflexivity]. Qed.
Example C85_example_history : history 3 (three, []) shrunk.
Proof.
  apply (Next 3 (three, []) (fst grown) (snd grown) (Remove [67; 97; 97]) shrunk (entries (fst grown))); [|exact grown_consistent| |vm_compute; reflexivity].
  - apply (Next 3 (three, []) three [] (Write (page 67 [97; 97])) _ (entries three)); [apply Start|exact three_consistent|left; check_addable|vm_compute; reflexivity].
  - left. exists 1, (w_entry (page 67 [97; 97])). split; [|reflexivity]. constructor.
    + vm_compute. reflexivity.
    + intros d Hd Hne. vm_compute in Hd. destruct Hd as [<-|[<-|[<-|[<-|[]]]]]; discriminate.
    + right. intros j Hj. vm_compute in Hj. destruct Hj as [<-|[]]. reflexivity.
Qed.
Example C85_example_notices : snd shrunk =
  [Wrote (r_to 2) (Some (r_to 1)) false; Wrote (w_entry (page 67 [97; 97])) None true;
   Wrote (r_to 1) (Some (r_to 2)) false; Removed [67; 97; 97] (w_entry (page 67 [97; 97])) false].
Proof. vm_compute. reflexivity. Qed.
(** Renaming "Cb" to "Cs" is allowed, too. *)
Example C85_example_move : allowed three (entries three) (Write (rename_b [115])).
Proof. right. exists 1, (w_entry (page 67 [98])). split; [exact (proj1 (proj2 C39_example))|right; exact (proj1 (proj2 (proj2 C39_example)))]. Qed.
(** So is removing "Cb" with the redirects to it: they are told as removed first. *)
Definition link_to (u i : Z) : entry := w_entry (redirect 67 [u] i).
Example C85_example_severed : allowed with_links (entries with_links) (Remove Cb) /\
  snd (snd (remove_entry_t keep_blob 3 Cb (with_links, []))) =
    [Wrote (link_to 100 0) (Some (link_to 100 1)) false; Wrote (link_to 101 0) (Some (link_to 101 1)) false;
     Removed [67; 100] (link_to 100 0) false; Removed [67; 101] (link_to 101 0) false; Removed Cb (w_entry (page 67 [98])) false].
Proof.
  split; [right; split; [exact (proj1 C42_redirects_example)|exact (proj1 (proj2 C42_redirects_example))]|]. vm_compute. reflexivity.
Qed.

Print Assumptions C85_listening_is_harmless.
Print Assumptions C85_every_change_is_told_partial.
Print Assumptions C85_picture_is_kept_partial.
Print Assumptions C85_refuted.
