(** Properties of iterating over an archive cluster by cluster: C51. *)
From Coq Require Import List ZArith Bool Lia Sorting.Sorted Sorting.Permutation.
From Verif Require Import Base Utf8 Entry PointerList Archive ArchiveSpec ArchiveFacts ArchiveLaws PropsArchive IterByCluster IterByClusterSpec IterByClusterProofs.
Import ListNotations.
Open Scope Z_scope.

(** For every archive that has a redirect: every cluster is yielded as one
    group, in order of the cluster numbers, the urls of a cluster in blob order;
    the last group are the redirects, in url order. *)
Theorem C51_groups_partial : forall s L, iter_entries s None None = Ok L -> existsb is_redirect L = true ->
  exists cs gs, clusters_used L cs /\ Forall2 (group_of L) cs gs /\
    iter_by_cluster s = (gs ++ [map full_url (filter is_redirect L)], Ok tt).
Proof. intros s L E H. destruct (iter_ok s L E) as (cs & gs & H1 & H2 & H3). rewrite H in H3. eauto. Qed.

(** Every url is yielded exactly once, whether or not there are redirects. *)
Theorem C51_each_url_once : forall s L, iter_entries s None None = Ok L -> Permutation (concat (fst (iter_by_cluster s))) (map full_url L).
Proof. exact each_once. Qed.
Theorem C51_no_url_twice : forall s L, consistent s L -> NoDup (concat (fst (iter_by_cluster s))) /\
  forall u, In u (concat (fst (iter_by_cluster s))) <-> exists e, get_entry_by_full_url s u = Ok e.
Proof.
  intros s L C. pose proof (each_once s L (entries_ok s L C)) as P. pose proof (consistent_sorted s L C) as So. split.
  - eapply Permutation_NoDup; [symmetry; exact P|]. clear - So. induction So as [|e L So IH H]; [constructor|]. cbn [map]. constructor; [|exact IH].
    intro Hin. apply in_map_iff in Hin as (e' & E & He'). rewrite Forall_forall in H. specialize (H e' He'). unfold url_lt in H. rewrite E in H.
    rewrite Utf8Proofs.ultb_irrefl in H. discriminate.
  - intro u. split.
    + intro H. apply (Permutation_in _ P) in H. apply in_map_iff in H as (e & <- & He). exists e. apply (lookup_iff s L _ _ C). auto.
    + intros [e He]. apply (Permutation_in _ (Permutation_sym P)). apply in_map_iff. apply (lookup_iff s L _ _ C) in He as [H1 H2]. exists e. auto.
Qed.

(** An archive without redirects: all groups are yielded, then the generator
    raises KeyError instead of ending. *)
Theorem C51_without_redirects : forall s L, iter_entries s None None = Ok L -> existsb is_redirect L = false ->
  exists cs gs, clusters_used L cs /\ Forall2 (group_of L) cs gs /\ iter_by_cluster s = (gs, Err KeyError).
Proof. intros s L E H. destruct (iter_ok s L E) as (cs & gs & H1 & H2 & H3). rewrite H in H3. eauto. Qed.

(** ** The property as stated is false *)
Definition C51_full_statement : Prop := forall s L, consistent s L ->
  exists cs gs, clusters_used L cs /\ Forall2 (group_of L) cs gs /\
    iter_by_cluster s = (gs ++ [map full_url (filter is_redirect L)], Ok tt).
Theorem C51_refuted : ~ C51_full_statement.
Proof.
  intro F. destruct (F _ _ one_consistent) as (cs & gs & _ & _ & E). assert (H : snd (iter_by_cluster (after (article [97]) blank)) = Ok tt) by (rewrite E; reflexivity).
  vm_compute in H. discriminate H.
Qed.

(** ** Example *)
Definition at_blob (url c b : Z) : went := fresh (mkEntry 0 [67] [url] (Some [url]) (Content c b)).
Definition mixed : zim := after (at_blob 103 7 1) (after (at_blob 102 3 0) (after (redirect 67 [101] 0) (after (at_blob 100 7 0) (after (at_blob 99 3 5) (after (at_blob 97 7 2) blank))))).
Example C51_example : (exists L, iter_entries mixed None None = Ok L /\ existsb is_redirect L = true) /\
  iter_by_cluster mixed = ([[[67; 102]; [67; 99]]; [[67; 100]; [67; 103]; [67; 97]]; [[67; 101]]], Ok tt).
Proof. split; [exists (entries mixed); split; vm_compute; reflexivity|vm_compute; reflexivity]. Qed.

Print Assumptions C51_groups_partial.
Print Assumptions C51_each_url_once.
Print Assumptions C51_no_url_twice.
Print Assumptions C51_without_redirects.
Print Assumptions C51_refuted.
