(** Properties of the title search: C49, C50. *)
From Coq Require Import List ZArith Bool Lia Sorting.Sorted Sorting.Permutation.
From Coq Require Import ZifyBool ZifyNat.
From Verif Require Import Base Utf8 Utf8Proofs Entry EntrySpec PointerList Archive ArchiveSpec ArchiveFacts ArchiveLaws PropsArchive Search SearchSpec SearchProofs.
Import ListNotations.
Open Scope Z_scope.

(** ** C49 *)
(** Searching the articles: exactly the articles whose title starts with the
    term, each once, in title order, and their number. *)
Theorem C49_articles_partial : forall s L sr term n, consistent s L -> new_search s false = Ok sr -> searchable term -> term <> [] -> zlen L <= n ->
  exists es rs, iter_articles s None None = Ok es /\ search_in_range sr term (Some 1) n = Ok rs /\ n_estimated sr term = Ok (zlen rs) /\
    (forall u t, In (u, t) (map (fun r => (r_url r, r_title r)) rs) <-> exists e, In e es /\ full_url e = u /\ title e = t /\ exists rest, t = term ++ rest) /\
    NoDup (map r_url rs) /\ StronglySorted (fun a b => ultb b a = false) (map r_title rs).
Proof.
  intros s L sr term n C E Hs Ht Hn. destruct (article_search s L sr term 1 n C E Hs) as (es & I & Cn & R).
  destruct R as (rs & R & N); [left; exact Ht|lia|]. destruct (article_nodup s L es C I) as [ND So].
  assert (Hz : zlen (titled term es) <= n).
  { apply Z.le_trans with (zlen L); [|exact Hn]. apply Z.le_trans with (zlen es); [unfold titled, zlen; pose proof (filter_length_le _ (fun e => uprefix term (title e)) es); lia|].
    destruct (articles_ok s L C) as (es' & I' & F & N' & _). rewrite I in I'. injection I' as <-.
    assert (Hin : incl (map full_url es) (map full_url L)).
    { intros u Hu. apply in_map_iff in Hu as (e & <- & He). destruct (forall2_in_r _ _ _ F _ He) as (i & _ & Hi). apply in_map. eapply PointerListProofs.znth_in; eauto. }
    pose proof (NoDup_incl_length ND Hin) as Hl. rewrite !map_length in Hl. unfold zlen. lia. }
  rewrite (portion_all _ n _ Hz) in N. destruct (numbered_listed _ _ _ _ N) as [Ls Len]. destruct (listed_urls _ _ _ Ls) as [Hu Ht'].
  exists es, rs. split; [exact I|]. split; [exact R|]. split; [rewrite Cn; unfold zlen; rewrite Len; reflexivity|]. split; [|split].
  - intros u t. assert (Q : map (fun r => (r_url r, r_title r)) rs = map (fun e => (full_url e, title e)) (titled term es)).
    { clear - Ls. induction Ls as [|e r l rs [k ->] H IH]; [reflexivity|]. cbn [map r_url r_title]. rewrite IH. reflexivity. }
    rewrite Q, in_map_iff. unfold titled. split.
    + intros (e & Ee & He). injection Ee as <- <-. apply filter_In in He as [H1 H2]. apply uprefix_iff in H2. eauto 6.
    + intros (e & H1 & <- & <- & H2). exists e. split; [reflexivity|]. apply filter_In. split; [exact H1|]. apply uprefix_iff. exact H2.
  - rewrite Hu. apply nodup_map_filter. exact ND.
  - rewrite Ht'. apply sorted_map_in. apply sorted_filter. exact So.
Qed.

(** The empty term finds all articles. *)
Theorem C49_no_term_partial : forall s L sr n, consistent s L -> new_search s false = Ok sr ->
  exists es, iter_articles s None None = Ok es /\ n_estimated sr [] = Ok (zlen es) /\
    ((forall e, In e es -> title e <> []) -> zlen es <= n -> exists rs, search_in_range sr [] (Some 1) n = Ok rs /\ map r_url rs = map full_url es).
Proof.
  intros s L sr n C E. destruct (article_search s L sr [] 1 n C E) as (es & I & Cn & R); [split; [eexists; reflexivity|split; discriminate]|]. exists es.
  assert (Q : titled [] es = es) by (apply filter_all; apply Forall_forall; intros; reflexivity). rewrite Q in *. split; [exact I|]. split; [exact Cn|].
  intros H Hn. destruct R as (rs & R & N); [right; exact H|lia|]. rewrite (portion_all _ n _ Hn) in N. destruct (numbered_listed _ _ _ _ N) as [Ls _].
  destruct (listed_urls _ _ _ Ls) as [Hu _]. exists rs. auto.
Qed.

(** Searching all entries, by namespace and title. *)
Theorem C49_entries_partial : forall s L sr term n, consistent s L -> new_search s true = Ok sr -> searchable term -> zlen L <= n ->
  (forall e, In e L -> title e <> [] /\ e_ns e ++ title e <> term) ->
  exists rs, search_in_range sr term (Some 1) n = Ok rs /\ n_estimated sr term = Ok (zlen rs) /\
    (forall u, In u (map r_url rs) <-> exists e, In e L /\ full_url e = u /\ exists rest, e_ns e ++ title e = term ++ rest) /\ NoDup (map r_url rs) /\
    exists es, StronglySorted nstitle_le es /\ map r_url rs = map full_url es.
Proof.
  intros s L sr term n C E Hs Hn Hx. destruct (entries_sorted s L sr C E) as (es0 & I0 & _ & _ & So & _ & P).
  destruct (entry_search s L sr term 1 n C E Hs) as (es & I & Cn & R).
  assert (es0 = es) as ->. { destruct I0 as (t & E1 & F1), I as (t' & E2 & F2). rewrite E1 in E2. injection E2 as <-. clear - F1 F2. revert es F2. induction F1; intros es F2; inversion F2; subst; [reflexivity|]. f_equal; [congruence|auto]. }
  destruct R as (rs & R & N); [|lia|].
  { intros e He. apply Hx. unfold nstitled in He. apply filter_In in He as [He _]. apply (Permutation_in _ P). exact He. }
  assert (Hz : zlen (nstitled term es) <= n).
  { apply Z.le_trans with (zlen L); [|exact Hn]. unfold zlen. rewrite <- (Permutation_length P). unfold nstitled. pose proof (filter_length_le _ (fun e => uprefix term (e_ns e ++ title e)) es). lia. }
  rewrite (portion_all _ n _ Hz) in N. destruct (numbered_listed _ _ _ _ N) as [Ls Len]. destruct (listed_urls _ _ _ Ls) as [Hu _].
  exists rs. split; [exact R|]. split; [rewrite Cn; unfold zlen; rewrite Len; reflexivity|]. split; [|split].
  - intro u. rewrite Hu, in_map_iff. unfold nstitled. split.
    + intros (e & <- & He). apply filter_In in He as [H1 H2]. apply uprefix_iff in H2. exists e. split; [apply (Permutation_in _ P); exact H1|auto].
    + intros (e & H1 & <- & H2). exists e. split; [reflexivity|]. apply filter_In. split; [apply (Permutation_in _ (Permutation_sym P)); exact H1|]. apply uprefix_iff. exact H2.
  - rewrite Hu. apply nodup_map_filter. eapply perm_nodup_urls; eauto.
  - exists (nstitled term es). split; [|exact Hu]. unfold nstitled. apply sorted_filter. exact So.
Qed.

(** As stated the property is false: a term ending in the last character of
    unicode raises ValueError ... *)
Definition C49_full_statement (nonarticles : bool) : Prop := forall s L sr term b, consistent s L -> new_search s nonarticles = Ok sr -> utf8_encode term = Some b -> term <> [] ->
  exists rs, search_in_range sr term (Some 1) (zlen L) = Ok rs.
Definition top : ustr := [1114111].
Lemma top_consistent : consistent (after (article top) blank) (entries (after (article top) blank)).
Proof. apply (add_step blank (article top)); [exact blank_consistent|check_addable|vm_compute; reflexivity]. Qed.
Theorem C49_refuted : ~ C49_full_statement false.
Proof.
  intro F. destruct (F (after (article top) blank) _ _ top _ top_consistent eq_refl eq_refl ltac:(discriminate)) as [rs H]. vm_compute in H. discriminate H.
Qed.
(** ... and among all entries, finding an entry by its complete title fails. *)
Theorem C49_complete_title_refuted : ~ C49_full_statement true.
Proof.
  intro F. destruct (F (after (article [97]) blank) _ _ Ca _ one_consistent eq_refl eq_refl ltac:(discriminate)) as [rs H]. vm_compute in H. discriminate H.
Qed.

(** ** C50 *)
(** Iterating over all results (in pages of 20): every match once, in order. *)
Theorem C50_all_partial : forall s L sr term fuel, consistent s L -> new_search s false = Ok sr -> searchable term ->
  exists es, iter_articles s None None = Ok es /\
    (term <> [] \/ (forall e, In e es -> title e <> []) -> (length es < fuel)%nat ->
     exists rs, iter_all_results fuel sr term = Ok rs /\ listed term (titled term es) rs).
Proof.
  intros s L sr term fuel C E Hs. destruct (articles_sorted s L sr C E) as (es & I & _). exists es. split; [exact I|]. intros Ht Hf.
  unfold iter_all_results. apply (iter_all_ok sr term (titled term es)); [|lia|].
  - intros start n H1. destruct (article_search s L sr term start n C E Hs) as (es' & I' & _ & R). rewrite I in I'. injection I' as <-. exact (R Ht H1).
  - cbn [Z.sub Z.to_nat skipn]. unfold titled. pose proof (filter_length_le _ (fun e => uprefix term (title e)) es). cbn. lia.
Qed.
(** Iterating over a range: the [start]-th and following matches, at most [n],
    in order; numbered from 1, whatever the start. *)
Theorem C50_range_partial : forall s L sr term start n fuel, consistent s L -> new_search s false = Ok sr -> searchable term -> 1 <= start ->
  exists es, iter_articles s None None = Ok es /\
    (term <> [] \/ (forall e, In e es -> title e <> []) ->
     exists rs, iter_in_range (S (S fuel)) sr term start n = Ok rs /\ numbered term 1 (portion start n (titled term es)) rs).
Proof.
  intros s L sr term start n fuel C E Hs H1. destruct (articles_sorted s L sr C E) as (es & I & _). exists es. split; [exact I|]. intros Ht.
  apply (iter_range_ok sr term (titled term es)); [|exact H1].
  intros start' n' H1'. destruct (article_search s L sr term start' n' C E Hs) as (es' & I' & _ & R). rewrite I in I'. injection I' as <-. exact (R Ht H1').
Qed.
(** Pages of any size cover everything: fetching page after page gives all matches. *)
Theorem C50_pages : forall (A : Type) (l : list A) n k, 0 < n -> zlen l <= n * Z.of_nat k ->
  concat (map (fun i => portion (1 + n * Z.of_nat i) n l) (seq 0 k)) = l.
Proof.
  intros A l n k Hn. assert (G : forall k j, zlen l <= n * Z.of_nat (j + k) -> concat (map (fun i => portion (1 + n * Z.of_nat i) n l) (seq j k)) = skipn (Z.to_nat (n * Z.of_nat j)) l).
  { clear k. induction k as [|k IH]; intros j H; cbn [seq map concat].
    - rewrite skipn_all2; [reflexivity|]. unfold zlen in H. rewrite Nat.add_0_r in H. lia.
    - rewrite IH by (replace (S j + k)%nat with (j + S k)%nat by lia; exact H). unfold portion. replace (1 + n * Z.of_nat j - 1) with (n * Z.of_nat j) by lia.
      replace (Z.to_nat (n * Z.of_nat (S j))) with (Z.to_nat (n * Z.of_nat j) + Z.to_nat n)%nat by nia. rewrite <- skipn_skipn'. apply firstn_skipn. }
  intro H. rewrite (G k 0%nat) by exact H. rewrite Z.mul_0_r. reflexivity.
Qed.

(** The numbers restart on every page: with 21 matches the last one is number 1 again. *)
Definition C50_full_statement : Prop := forall s L sr term, consistent s L -> new_search s false = Ok sr -> searchable term ->
  exists es, iter_articles s None None = Ok es /\
    ((forall e, In e es -> title e <> []) -> exists rs, iter_all_results (S (length es)) sr term = Ok rs /\ numbered term 1 (titled term es) rs).
Fixpoint adds (us : list Z) (s : zim) : zim := match us with [] => s | u :: us' => adds us' (after (article [u]) s) end.
Fixpoint fine (us : list Z) (s : zim) : bool :=
  match us with
  | [] => true
  | u :: us' => (0 <? u) && (u <? 128) && forallb (fun e => negb (ueqb (full_url e) [67; u])) (entries s) && (zlen (entries s) + 1 <? 2 ^ 32) &&
      match fst (write_entry 2 (article [u]) s) with Ok _ => fine us' (after (article [u]) s) | Err _ => false end
  end.
Lemma adds_consistent : forall us s, consistent s (entries s) -> fine us s = true -> consistent (adds us s) (entries (adds us s)).
Proof.
  induction us as [|u us IH]; intros s C F; [exact C|]. cbn [adds fine] in *. apply andb_prop in F as [F H4]. apply andb_prop in F as [F H3]. apply andb_prop in F as [F H2]. apply andb_prop in F as [H0 H1].
  destruct (fst (write_entry 2 (article [u]) s)) as [[]|x] eqn:W; [|discriminate]. apply IH; [|exact H4].
  assert (Hs : storable [u]). { split; [eexists; cbn; unfold enc1; replace (u <? 128) with true by lia; replace (u <? 0) with false by lia; reflexivity|]. cbn. intros [Q|[]]; lia. }
  assert (Hab : absent (entries s) [67; u]). { intros e He Hu. rewrite forallb_forall in H2. specialize (H2 e He). rewrite Hu, ueqb_refl in H2. discriminate. }
  apply (add_step s (article [u])); [exact C| |].
  - constructor; cbn [article w_entry w_old_url w_force e_kind e_ns full_url e_url]; auto; try discriminate.
    + split; [cbn; lia|]. split; [eexists; reflexivity|]. split; [exact Hs|]. split; [exists [u]; auto|cbn; lia].
    + destruct Hs as [(b & Hb) _]. exists (Byte.x43 :: b). cbn in *. destruct (enc1 u); [|discriminate]. injection Hb as <-. reflexivity.
    + lia.
  - unfold after. destruct (write_entry 2 (article [u]) s) as [r s']. cbn in *. congruence.
Qed.
Definition letters : list Z := map (fun n => 97 + Z.of_nat n) (seq 0 21).
Definition many : zim := adds letters blank.
Lemma many_consistent : consistent many (entries many).
Proof. apply adds_consistent; [exact blank_consistent|vm_compute; reflexivity]. Qed.
Definition the_search : searcher := match new_search many false with Ok sr => sr | Err _ => mkSearcher many (title_key many) [] end.
Lemma many_articles : (do l <- iter_articles many None None ;; Ok (length l, forallb (fun e => match title e with [] => false | _ => true end) l)) = Ok (21%nat, true).
Proof. vm_compute. reflexivity. Qed.
Lemma many_numbers : (do rs <- iter_all_results 22 the_search [] ;; Ok (nth_error (map r_number rs) 20)) = Ok (Some 1).
Proof. vm_compute. reflexivity. Qed.
Lemma many_search : new_search many false = Ok the_search.
Proof. reflexivity. Qed.
Lemma numbered_nth : forall term l k rs, numbered term k l rs -> forall i, (i < length l)%nat -> nth_error (map r_number rs) i = Some (k + Z.of_nat i).
Proof.
  intros term. induction l as [|e l IH]; intros k [|r rs] N i Hi; cbn [length] in Hi; try lia; cbn [numbered] in N; [contradiction|]. destruct N as [-> N]. destruct i as [|i]; [cbn; f_equal; lia|].
  cbn [map nth_error]. rewrite (IH _ _ N i) by lia. f_equal. lia.
Qed.
Theorem C50_refuted : ~ C50_full_statement.
Proof.
  intro F. destruct (F many _ the_search [] many_consistent many_search) as (es & I & H); [split; [eexists; reflexivity|split; discriminate]|].
  pose proof many_articles as M. rewrite I in M. cbn [bind] in M. injection M as M1 M2.
  destruct H as (rs & R & N); [intros e He; rewrite forallb_forall in M2; specialize (M2 e He); destruct (title e); [discriminate M2|discriminate]|].
  rewrite M1 in R. pose proof many_numbers as Q. rewrite R in Q. cbn [bind] in Q.
  assert (T : titled [] es = es) by (apply filter_all; apply Forall_forall; intros; reflexivity). rewrite T in N.
  rewrite (numbered_nth _ _ _ _ N 20%nat) in Q by (rewrite M1; repeat constructor). discriminate Q.
Qed.

(** ** Example: searches meeting the hypotheses, in an archive of 21 articles *)
Example C49_example : consistent many (entries many) /\ searchable [98] /\ new_search many false = Ok the_search /\
  (do rs <- search_in_range the_search [98] (Some 1) 20 ;; Ok (map r_url rs)) = Ok [[67; 98]] /\ n_estimated the_search [98] = Ok 1 /\
  (do rs <- search_in_range the_search [] (Some 20) 20 ;; Ok (map r_url rs)) = Ok [[67; 116]; [67; 117]].
Proof.
  split; [exact many_consistent|]. split; [split; [eexists; reflexivity|split; discriminate]|]. split; [exact many_search|].
  split; [vm_compute; reflexivity|]. split; vm_compute; reflexivity.
Qed.

Print Assumptions C49_articles_partial.
Print Assumptions C49_no_term_partial.
Print Assumptions C49_entries_partial.
Print Assumptions C49_refuted.
Print Assumptions C49_complete_title_refuted.
Print Assumptions C50_all_partial.
Print Assumptions C50_range_partial.
Print Assumptions C50_pages.
Print Assumptions C50_refuted.
