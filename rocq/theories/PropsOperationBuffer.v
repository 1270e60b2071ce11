(** Properties of buffered redirects: C47. *)
From Coq Require Import List ZArith Bool Lia Sorting.Permutation.
From Verif Require Import Base Utf8 Entry EntrySpec PointerList SpaceAllocator SpaceAllocatorSpec Cluster Archive ArchiveSpec
  ArchiveProofs ArchiveFacts ArchiveObserve ArchiveLaws PropsArchive OperationBuffer OperationBufferSpec OperationBufferProofs.
Import ListNotations.
Open Scope Z_scope.

(** ** Flushing terminates: a bound of one more round than there are redirects
    is never reached, whatever the archive and the buffer *)
Theorem C47_terminates : forall fuel m n o, (length (b_redirects o) < m)%nat -> (m <= n)%nat -> apply_redirects (S n) fuel o = apply_redirects (S m) fuel o.
Proof. intros fuel m n o Hm Hn. unfold apply_redirects, mbind. rewrite (apply_loop_rounds fuel m n o Hm Hn). reflexivity. Qed.

(** ** Exactly the resolvable redirects are written, the others stay buffered *)
Theorem C47_flush : forall s L l m n rounds, consistent s L -> acceptable L l -> reserved s (zlen L + zlen l) -> (length l < rounds)%nat ->
  exists s' l', apply_redirects (S rounds) (S (S n)) (mkBuffered s l m) = (verdict l', mkBuffered s' l' m) /\ resolved s l s' l'.
Proof. exact apply_ok. Qed.

(** The same for redirects added one by one, in the order [l], to an archive with
    nothing buffered, followed by a flush. *)
Theorem C47_add_then_flush : forall s L l m n rounds, consistent s L -> acceptable L l -> reserved s (zlen L + zlen l) -> (length l < rounds)%nat ->
  exists s' l', (let* _ := add_redirects (S (S n)) l in apply_redirects (S rounds) (S (S n))) (mkBuffered s [] m) = (verdict l', mkBuffered s' l' m) /\
    resolved s l s' l'.
Proof. exact add_then_apply_ok. Qed.

Theorem C47_all_resolved : forall s L l m n rounds, consistent s L -> acceptable L l -> reserved s (zlen L + zlen l) -> (length l < rounds)%nat ->
  (forall r, In r l -> resolvable s l r) ->
  exists s', apply_redirects (S rounds) (S (S n)) (mkBuffered s l m) = (Ok tt, mkBuffered s' [] m) /\ forall r, In r l -> has_redirect s' r.
Proof.
  intros s L l m n rounds C A R Hr H. destruct (apply_ok s L l m n rounds C A R Hr) as (s' & l' & E & [Q1 _ Q3 _ _ _]).
  destruct l' as [|r l']; [exists s'; split; [exact E|intros r Hin; apply Q3; auto]|]. exfalso. destruct (proj1 (Q1 r) (or_introl eq_refl)) as [H1 H2]. auto.
Qed.
Theorem C47_some_unresolved : forall s L l m n rounds r, consistent s L -> acceptable L l -> reserved s (zlen L + zlen l) -> (length l < rounds)%nat ->
  In r l -> ~ resolvable s l r ->
  exists o', apply_redirects (S rounds) (S (S n)) (mkBuffered s l m) = (Err UnresolvedRedirect, o') /\ In r (b_redirects o').
Proof.
  intros s L l m n rounds r C A R Hr Hin Hn. destruct (apply_ok s L l m n rounds C A R Hr) as (s' & l' & E & [Q1 _ _ _ _ _]).
  assert (Hl : In r l') by (apply Q1; auto). exists (mkBuffered s' l' m). split; [|exact Hl]. rewrite E. destruct l'; [contradiction|reflexivity].
Qed.

(** ** The order does not matter *)
Theorem C47_order : forall s L l1 l2 m n rounds s1 s2 l1' l2' r1 r2, consistent s L -> acceptable L l1 -> Permutation l1 l2 -> reserved s (zlen L + zlen l1) ->
  (length l1 < rounds)%nat ->
  apply_redirects (S rounds) (S (S n)) (mkBuffered s l1 m) = (r1, mkBuffered s1 l1' m) ->
  apply_redirects (S rounds) (S (S n)) (mkBuffered s l2 m) = (r2, mkBuffered s2 l2' m) ->
  r1 = r2 /\ (forall r, In r l1' <-> In r l2') /\ (forall u, exists_at s1 u <-> exists_at s2 u) /\ (forall r, In r l1 -> has_redirect s1 r <-> has_redirect s2 r).
Proof.
  intros s L l1 l2 m n rounds s1 s2 l1' l2' r1 r2 C A P R Hr E1 E2.
  assert (Hz : zlen l2 = zlen l1) by (unfold zlen; rewrite (Permutation_length P); reflexivity).
  assert (A2 : acceptable L l2).
  { destruct A as [A1 A2 A3 A4]. constructor.
    - intros r H. apply A1. apply (Permutation_in _ (Permutation_sym P) H).
    - intros r H. apply A2. apply (Permutation_in _ (Permutation_sym P) H).
    - eapply Permutation_NoDup; [apply Permutation_map; exact P|exact A3].
    - lia. }
  assert (PR : forall r, resolvable s l1 r <-> resolvable s l2 r) by (intro r; split; apply resolvable_perm; [exact P|symmetry; exact P]).
  destruct (apply_ok s L l1 m n rounds C A R Hr) as (s1' & k1 & F1 & [Q1 _ Q3 _ Q5 _]). rewrite E1 in F1. injection F1 as F1 <- <-.
  destruct (apply_ok s L l2 m n rounds C A2 ltac:(rewrite Hz; exact R) ltac:(rewrite <- (Permutation_length P); exact Hr)) as (s2' & k2 & F2 & [U1 _ U3 _ U5 _]).
  rewrite E2 in F2. injection F2 as F2 <- <-.
  assert (Left : forall r, In r l1' <-> In r l2').
  { intro r. rewrite Q1, U1, PR. split; intros [H1 H2]; split; auto; [apply (Permutation_in _ P H1)|apply (Permutation_in _ (Permutation_sym P) H1)]. }
  split; [|split; [exact Left|split]].
  - rewrite F1, F2. destruct l1' as [|a l1'], l2' as [|b l2']; try reflexivity; exfalso; [apply (proj2 (Left b)); left; reflexivity|apply (proj1 (Left a)); left; reflexivity].
  - intro u. rewrite Q5, U5. split; (intros [H|(r & H & Hu)]; [auto|right; exists r; split; [apply PR; exact H|exact Hu]]).
  - intros r Hin. split; intro H.
    + apply U3, PR. destruct (has_exists _ _ H) as [e He]. assert (X : exists_at s1 (source r)) by (exists e; exact He). apply Q5 in X as [X|(r' & X & Es)].
      * exfalso. exact (not_both _ _ _ C X (ac_new _ _ A r Hin)).
      * replace r with r'; [exact X|]. apply (same_source l1); auto; [apply (ac_distinct _ _ A)|inversion X; assumption].
    + apply Q3, PR. destruct (has_exists _ _ H) as [e He]. assert (X : exists_at s2 (source r)) by (exists e; exact He). apply U5 in X as [X|(r' & X & Es)].
      * exfalso. exact (not_both _ _ _ C X (ac_new _ _ A r Hin)).
      * apply PR in X. apply PR. replace r with r'; [exact X|]. apply (same_source l1); auto; [apply (ac_distinct _ _ A)|inversion X; assumption].
Qed.

(** With no main page operation buffered, this is the whole of finalizing. *)
Theorem C47_finalize : forall blobs rounds fuel s l s' l' r, apply_redirects rounds fuel (mkBuffered s l None) = (r, mkBuffered s' l' None) ->
  finalize blobs rounds fuel (mkBuffered s l None) = (r, mkBuffered s' l' None).
Proof. intros blobs rounds fuel s l s' l' r E. unfold finalize, mbind. rewrite E. destruct r as [[]|e]; reflexivity. Qed.

(** ** Example: a chain added in reverse order is resolved, a cycle and a dangling redirect are not *)
Definition to (s t : Z) : rop := ([67; s], [67; t], None).
Definition chain : list rop := [to 101 100; to 100 99; to 120 121; to 99 97; to 121 120; to 122 113].
Ltac check_sound := constructor;
  [ eexists; eexists; eexists; split; [reflexivity|split; [reflexivity|split; [eexists; reflexivity|cbn; intuition discriminate]]]
  | split; [discriminate|eexists; reflexivity] | discriminate | discriminate ].
Definition base : zim := after (article [97]) blank.
Example C47_example : acceptable (entries base) chain /\ reserved base (zlen (entries base) + zlen chain) /\
  apply_redirects 7 2 (mkBuffered base chain None) = (Err UnresolvedRedirect, snd (apply_redirects 7 2 (mkBuffered base chain None))) /\
  b_redirects (snd (apply_redirects 7 2 (mkBuffered base chain None))) = [to 120 121; to 121 120; to 122 113] /\
  map full_url (entries (b_zim (snd (apply_redirects 7 2 (mkBuffered base chain None))))) = [[67; 97]; [67; 99]; [67; 100]; [67; 101]].
Proof.
  split.
  { constructor.
    - intros r H. repeat (destruct H as [<-|H]; [check_sound|]). destruct H.
    - intros r H e He Hu. vm_compute in He. destruct He as [<-|[]]. repeat (destruct H as [<-|H]; [discriminate Hu|]). destruct H.
    - repeat constructor; cbn; intuition discriminate.
    - vm_compute. reflexivity. }
  split.
  { split; [intros p H; vm_compute in H; destruct H as [<-|[]]; vm_compute; reflexivity|].
    intros x Hx. change (zlen (entries base) + zlen chain) with 7 in Hx. split; [split; [lia|]; apply Z.le_lt_trans with 7; [lia|vm_compute; reflexivity]|]. intros (b & Hb & _). exact Hb. }
  split; [vm_compute; reflexivity|]. split; vm_compute; reflexivity.
Qed.

Print Assumptions C47_terminates.
Print Assumptions C47_flush.
Print Assumptions C47_add_then_flush.
Print Assumptions C47_all_resolved.
Print Assumptions C47_some_unresolved.
Print Assumptions C47_order.
Print Assumptions C47_finalize.
