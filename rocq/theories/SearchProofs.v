(** Proofs about the title search. *)
From Coq Require Import List ZArith Bool Lia Sorting.Sorted.
From Coq Require Import ZifyBool ZifyNat.
From Verif Require Import Base BaseProofs Utf8 Utf8Proofs Entry EntrySpec EntryProofs PointerList PointerListSpec PointerListProofs
  Archive ArchiveSpec ArchiveProofs ArchiveWriteProofs ArchiveMoveProofs ArchiveFacts Search SearchSpec.
Import ListNotations.
Open Scope Z_scope.

(** ** Strings with a given beginning are an interval *)
Lemma prefix_interval : forall p c t, uprefix (p ++ [c]) t = negb (ultb t (p ++ [c])) && ultb t (p ++ [c + 1]).
Proof.
  induction p as [|x p IH]; intros c [|y t]; cbn [app uprefix ultb]; try reflexivity.
  - destruct (Z.ltb_spec y c), (Z.ltb_spec y (c + 1)), (Z.eqb_spec y c), (Z.eqb_spec c y), (Z.eqb_spec y (c + 1)); try lia; destruct t; reflexivity.
  - rewrite IH. destruct (Z.eqb_spec x y) as [->|N].
    + rewrite Z.ltb_irrefl, Z.eqb_refl. reflexivity.
    + replace (y =? x) with false by lia. destruct (y <? x); reflexivity.
Qed.
Lemma below_next : forall p c t, ultb t (p ++ [c]) = true -> ultb t (p ++ [c + 1]) = true.
Proof.
  induction p as [|x p IH]; intros c [|y t] H; cbn [app ultb] in *; try reflexivity.
  - assert (y < c). { destruct (Z.ltb_spec y c); [lia|]. destruct (y =? c); destruct t; discriminate. } replace (y <? c + 1) with true by lia. reflexivity.
  - destruct (y <? x); [reflexivity|]. destruct (y =? x); [|discriminate]. cbn [orb andb] in *. apply IH. exact H.
Qed.

Lemma match_nonempty : forall sr term, term <> [] -> match_range sr term =
  (do k <- encode term ;; do first <- find_first_ge (sr_key sr) (sr_ptrs sr) k ;; do next <- next_term term ;; do k' <- encode next ;;
   do end_ <- find_first_ge (sr_key sr) (sr_ptrs sr) k' ;; Ok (first, end_)).
Proof. intros sr [|c t] H; [contradiction|reflexivity]. Qed.

(** ** Positions *)
Section Sorted.
Variables (sr : searcher) (K : entry -> ustr) (es : list entry).
Hypothesis Hptr : Forall2 (fun p e => get_entry_by_url_index (sr_zim sr) p = Ok e /\ sr_key sr p = Ok (enc (K e))) (sr_ptrs sr) es.
Hypothesis Henc : Forall (fun e => utf8_encode (K e) = Some (enc (K e))) es.
Hypothesis Hsorted : StronglySorted (fun a b => ultb (K b) (K a) = false) es.

Lemma keys : keys_are (sr_key sr) (sr_ptrs sr) (map (fun e => enc (K e)) es) /\ StronglySorted ble (map (fun e => enc (K e)) es).
Proof.
  split.
  - unfold keys_are. clear Henc Hsorted. induction Hptr as [|p e ps es' [_ H] F IH]; constructor; auto.
  - clear Hptr. induction Hsorted as [|e l S IH F]; cbn [map]; [constructor|]. inversion Henc; subst. constructor; [auto|].
    rewrite Forall_forall in *. intros k Hk. apply in_map_iff in Hk as (d & <- & Hd). unfold ble.
    rewrite (utf8_order (K d) (K e) _ _) by auto. apply F. exact Hd.
Qed.

Lemma cut : forall t b, utf8_encode t = Some b -> exists A B, es = A ++ B /\ find_first_ge (sr_key sr) (sr_ptrs sr) b = Ok (zlen A) /\
  Forall (fun e => ultb (K e) t = true) A /\ Forall (fun e => ultb (K e) t = false) B.
Proof.
  intros t b Hb. destruct keys as [H1 H2]. destruct (find_first_ge_spec (sr_key sr) (sr_ptrs sr) b _ H1 H2) as (r & E & Sp).
  apply splits_app in Sp as (lo & hi & E2 & Hr & Hlo & Hhi).
  exists (firstn (length lo) es), (skipn (length lo) es).
  assert (EA : map (fun e => enc (K e)) (firstn (length lo) es) = lo) by (rewrite <- firstn_map, E2, firstn_app, Nat.sub_diag, firstn_all; cbn; apply app_nil_r).
  assert (EB : map (fun e => enc (K e)) (skipn (length lo) es) = hi) by (rewrite <- skipn_map, E2, skipn_app, Nat.sub_diag, skipn_all; reflexivity).
  pose proof (firstn_skipn (length lo) es) as Es. split; [symmetry; exact Es|].
  rewrite <- Es in Henc. apply Forall_app in Henc as [HA HB].
  split; [rewrite E; f_equal; rewrite <- Hr, <- EA at 1; unfold zlen; rewrite map_length; reflexivity|]. split.
  - rewrite <- EA in Hlo. rewrite Forall_forall in *. intros e He. rewrite <- (utf8_order _ _ _ _ (HA e He) Hb). apply Hlo. apply in_map_iff. eauto.
  - rewrite <- EB in Hhi. rewrite Forall_forall in *. intros e He. rewrite <- (utf8_order _ _ _ _ (HB e He) Hb). apply Hhi. apply in_map_iff. eauto.
Qed.

Lemma filter_all : forall A (f : A -> bool) l, Forall (fun x => f x = true) l -> filter f l = l.
Proof. intros A f l H. induction H as [|x l Hx H IH]; [reflexivity|]. cbn. rewrite Hx, IH. reflexivity. Qed.
Lemma filter_none : forall A (f : A -> bool) l, Forall (fun x => f x = false) l -> filter f l = [].
Proof. intros A f l H. induction H as [|x l Hx H IH]; [reflexivity|]. cbn. rewrite Hx. exact IH. Qed.

Definition found (term : ustr) : list entry := filter (fun e => uprefix term (K e)) es.

Lemma range_ok : forall term, searchable term -> exists A B, es = A ++ found term ++ B /\ match_range sr term = Ok (zlen A, zlen A + zlen (found term)).
Proof.
  intros term [[b Hb] [N1 N2]].
  destruct term as [|c0 t0] eqn:Et.
  - exists [], []. unfold found. rewrite (filter_all _ (fun e => uprefix [] (K e))) by (apply Forall_forall; intros; reflexivity).
    rewrite app_nil_r. split; [reflexivity|]. cbn [match_range]. change (zlen (@nil entry)) with 0. rewrite (forall2_len _ _ _ Hptr). reflexivity.
  - destruct (@exists_last _ (c0 :: t0) ltac:(discriminate)) as (p & c & Ht). rewrite Ht in N1, N2, Hb. rewrite last_last in N1, N2.
    assert (Hc : exists x y z, utf8_encode p = Some x /\ enc1 c = Some y /\ enc1 (c + 1) = Some z /\ c + 1 < 1114112).
    { clear Ht Henc Hptr Hsorted. revert b Hb. induction p as [|d p IH]; intros b Hb; cbn [app utf8_encode] in Hb.
      - destruct (enc1 c) as [y|] eqn:Ey; [|discriminate]. exists []. apply enc1_cases in Ey as Hcs.
        assert (0 <= c < 1114112 /\ ~ 55296 <= c < 57344) by intuition lia.
        destruct (enc1_some (c + 1)) as [z Hz]; [lia|lia|]. exists y, z. repeat split; auto. lia.
      - destruct (enc1 d) as [x|] eqn:Ed; [|discriminate]. destruct (utf8_encode (p ++ [c])) as [q|] eqn:Eq; [|discriminate].
        destruct (IH _ eq_refl) as (x' & y & z & H1 & H2 & H3 & H4). exists (x ++ x'), y, z. cbn [utf8_encode]. rewrite Ed, H1. auto. }
    destruct Hc as (x & y & z & Hx & Hy & Hz & Hmax).
    assert (Hn : utf8_encode (p ++ [c + 1]) = Some (x ++ z)) by (apply utf8_encode_app; [exact Hx|cbn; rewrite Hz, app_nil_r; reflexivity]).
    rewrite Ht, match_nonempty by (destruct p; discriminate). rewrite (encode_some _ _ Hb). cbn [bind]. unfold next_term. rewrite rev_app_distr. cbn [rev app].
    replace (c + 1 <? 1114112) with true by lia. rewrite rev_involutive.
    destruct (cut _ _ Hb) as (A1 & B1 & E1 & R1 & L1 & G1). destruct (cut _ _ Hn) as (A2 & B2 & E2 & R2 & L2 & G2).
    rewrite R1. cbn [bind]. rewrite (encode_some _ _ Hn). cbn [bind]. rewrite R2. cbn [bind].
    assert (exists M, A2 = A1 ++ M /\ B1 = M ++ B2) as (M & -> & ->).
    { assert (Hle : (length A1 <= length A2)%nat).
      { destruct (Nat.le_gt_cases (length A1) (length A2)) as [|Hgt]; [assumption|exfalso].
        assert (X : nth_error es (length A2) <> None) by (apply nth_error_Some; rewrite E1, app_length; lia).
        destruct (nth_error es (length A2)) as [e|] eqn:En; [|congruence].
        pose proof En as En1. rewrite E1, nth_error_app1 in En1 by lia. pose proof En as En2. rewrite E2, nth_error_app2, Nat.sub_diag in En2 by lia.
        apply nth_error_In in En1. destruct B2 as [|e' B2]; [discriminate|]. injection En2 as ->. rewrite Forall_forall in L1. specialize (L1 e En1).
        inversion G2; subst. apply below_next in L1. congruence. }
      exists (skipn (length A1) A2). assert (EA : A1 = firstn (length A1) A2).
      { transitivity (firstn (length A1) (A2 ++ B2)); [rewrite <- E2, E1, firstn_app, Nat.sub_diag, firstn_all; cbn; rewrite app_nil_r; reflexivity|].
        rewrite firstn_app. replace (length A1 - length A2)%nat with 0%nat by lia. cbn. apply app_nil_r. }
      assert (EA2 : A2 = A1 ++ skipn (length A1) A2) by (rewrite EA at 1; symmetry; apply firstn_skipn). split; [exact EA2|].
      rewrite EA2, <- app_assoc, E1 in E2. apply app_inv_head in E2. exact E2. }
    apply Forall_app in L2 as [_ L2]. apply Forall_app in G1 as [G1 _].
    assert (F : found (p ++ [c]) = M).
    { unfold found. rewrite E1, !filter_app.
      rewrite (filter_none _ _ A1), (filter_all _ _ M), (filter_none _ _ B2); [apply app_nil_r| | |].
      - rewrite Forall_forall in *. intros e He. rewrite prefix_interval, (G2 e He). apply andb_false_r.
      - rewrite Forall_forall in *. intros e He. rewrite prefix_interval, (G1 e He), (L2 e He). reflexivity.
      - rewrite Forall_forall in *. intros e He. rewrite prefix_interval, (L1 e He). reflexivity. }
    rewrite F. exists A1, B2. split; [exact E1|]. rewrite zlen_app. reflexivity.
Qed.

(** ** Results *)
Definition shown (term : ustr) (e : entry) : Prop := title e <> [] /\ zlen term <= zlen (title e) /\ full_url e <> [].

Lemma new_result_ok : forall k term e, 1 <= k -> shown term e -> new_result k term e = Ok (mkResult k (zlen term, zlen (title e)) (full_url e) (title e)).
Proof.
  intros k term e Hk (H1 & H2 & H3). unfold new_result. replace (1 <=? k) with true by lia. cbn [negb].
  destruct (Z.eqb_spec (zlen (title e)) 0) as [Ez|_]; [exfalso; apply H1; destruct (title e); [reflexivity|rewrite zlen_cons in Ez; pose proof (zlen_nonneg u); lia]|].
  replace (zlen (title e) <? zlen term) with false by lia. destruct (full_url e); [contradiction|reflexivity].
Qed.

Lemma results_range : forall term pos0 l pos, (forall k e, znth l k = Some e -> znth es (pos + k) = Some e) -> pos0 <= pos -> Forall (shown term) l ->
  exists rs, iter_range (fun i => do p <- get_by_index (sr_ptrs sr) i ;; do e <- get_entry_by_url_index (sr_zim sr) p ;; new_result (i - pos0 + 1) term e) pos (length l) = Ok rs /\
    numbered term (pos - pos0 + 1) l rs.
Proof.
  intros term pos0. induction l as [|e l IH]; intros pos H Hp F; [exists []; split; [reflexivity|exact I]|]. inversion F as [|? ? Hs F']; subst.
  destruct (IH (pos + 1)) as (rs & R & N); [|lia|exact F'|].
  { intros k x Hk. replace (pos + 1 + k) with (pos + (k + 1)) by lia. apply H. pose proof (znth_some _ _ _ Hk).
    change (e :: l) with ([e] ++ l). rewrite znth_app_r by (change (zlen [e]) with 1; lia). change (zlen [e]) with 1. replace (k + 1 - 1) with k by lia. exact Hk. }
  cbn [iter_range length]. pose proof (H 0 e eq_refl) as H0. rewrite Z.add_0_r in H0. destruct (forall2_znth_r _ _ _ Hptr _ _ H0) as (p & Ep & Hx & _).
  pose proof (znth_some _ _ _ Ep). rewrite get_by_index_znth, Ep by lia. cbn [bind]. rewrite Hx. cbn [bind]. rewrite new_result_ok by (auto; lia). cbn [bind].
  rewrite R. cbn [bind]. eexists; split; [reflexivity|]. cbn [numbered]. split; [reflexivity|]. replace (pos - pos0 + 1 + 1) with (pos + 1 - pos0 + 1) by lia. exact N.
Qed.

Lemma search_ok : forall term start n, searchable term -> Forall (shown term) (found term) -> 1 <= start ->
  exists rs, search_in_range sr term (Some start) n = Ok rs /\ numbered term 1 (portion start n (found term)) rs.
Proof.
  intros term start n Hs F H1. destruct (range_ok term Hs) as (A & B & E & R). unfold search_in_range. rewrite R. cbn [bind fst snd].
  set (m := found term) in *. set (pos := zlen A + (start - 1)).
  assert (L : length (portion start n m) = Z.to_nat (Z.min n (zlen A + zlen m - pos))).
  { unfold portion, pos. rewrite firstn_length, skipn_length. unfold zlen. lia. }
  rewrite <- L. destruct (results_range term pos (portion start n m) pos) as (rs & X & Y); [| lia| |].
  - intros k e Hk. pose proof (znth_some _ _ _ Hk) as Hb. rewrite E. rewrite znth_app_r by (unfold pos; lia).
    assert (Hm : znth m (start - 1 + k) = Some e).
    { unfold znth in Hk |- *. replace (k <? 0) with false in Hk by lia. replace (start - 1 + k <? 0) with false by lia. unfold portion in Hk.
      assert (G : nth_error (skipn (Z.to_nat (start - 1)) m) (Z.to_nat k) = Some e).
      { revert Hk. generalize (skipn (Z.to_nat (start - 1)) m), (Z.to_nat n), (Z.to_nat k). clear. intros l n k. revert l k.
        induction n; intros l k H; [destruct k; discriminate|]. destruct l; [destruct k; discriminate|]. destruct k; [exact H|]. cbn in *. eauto. }
      rewrite <- G. replace (Z.to_nat (start - 1 + k)) with (Z.to_nat (start - 1) + Z.to_nat k)%nat by lia.
      generalize (Z.to_nat (start - 1)), (Z.to_nat k), m. clear. intros i j m. revert m j. induction i; intros m j; [reflexivity|]. destruct m; [destruct j; reflexivity|]. cbn. apply IHi. }
    pose proof (znth_some _ _ _ Hm). replace (pos + k - zlen A) with (start - 1 + k) by (unfold pos; lia). rewrite znth_app_l by lia. exact Hm.
  - rewrite Forall_forall in *. intros e He. apply F. unfold portion in He. clear - He.
    assert (In e (skipn (Z.to_nat (start - 1)) m)). { revert He. generalize (Z.to_nat n), (skipn (Z.to_nat (start - 1)) m). clear. induction n; intros l H; [destruct H|]. destruct l; [destruct H|]. destruct H; [left; auto|right; eauto]. }
    revert H. generalize (Z.to_nat (start - 1)), m. clear. induction n; intros m H; [exact H|]. destruct m; [exact H|]. right. apply (IHn m). exact H.
  - exists rs. split; [exact X|]. replace (pos - pos + 1) with 1 in Y by lia. exact Y.
Qed.

Lemma count_ok : forall term, searchable term -> n_estimated sr term = Ok (zlen (found term)).
Proof. intros term H. destruct (range_ok term H) as (A & B & _ & R). unfold n_estimated. rewrite R. cbn [bind fst snd]. f_equal. lia. Qed.
End Sorted.

(** ** Pages *)
Lemma numbered_listed : forall term l k rs, numbered term k l rs -> listed term l rs /\ length rs = length l.
Proof.
  intros term. induction l as [|e l IH]; intros k [|r rs] H; cbn [numbered] in H; try contradiction; [split; [constructor|reflexivity]|].
  destruct H as [H1 H2]. destruct (IH _ _ H2) as [H3 H4]. split; [constructor; [exists k; exact H1|exact H3]|cbn; congruence].
Qed.
Lemma skipn_skipn' : forall A i j (l : list A), skipn i (skipn j l) = skipn (j + i) l.
Proof. intros A i j. induction j as [|j IH]; intros l; [reflexivity|]. destruct l; [destruct i; reflexivity|]. cbn. apply IH. Qed.
Lemma firstn_skipn_len : forall A k (l : list A), l = firstn k l ++ skipn (length (firstn k l)) l.
Proof.
  intros A k l. rewrite <- (firstn_skipn k l) at 1. f_equal. destruct (Nat.le_gt_cases k (length l)); [rewrite firstn_length_le by lia; reflexivity|].
  rewrite (firstn_all2 l) by lia. rewrite skipn_all, skipn_all2 by lia. reflexivity.
Qed.

Section Pages.
Variables (sr : searcher) (term : ustr) (m : list entry).
Hypothesis Hpage : forall start n, 1 <= start -> exists rs, search_in_range sr term (Some start) n = Ok rs /\ numbered term 1 (portion start n m) rs.

Lemma iter_all_ok : forall fuel cur, 1 <= cur -> (length (skipn (Z.to_nat (cur - 1)) m) < fuel)%nat ->
  exists rs, iter_results fuel sr term cur = Ok rs /\ listed term (skipn (Z.to_nat (cur - 1)) m) rs.
Proof.
  induction fuel as [|fuel IH]; intros cur H1 Hf; [lia|]. cbn [iter_results].
  destruct (Hpage cur PAGE H1) as (rs & -> & N). cbn [bind]. destruct (numbered_listed _ _ _ _ N) as [Ls Len].
  set (rest := skipn (Z.to_nat (cur - 1)) m) in *. unfold portion in N, Ls, Len. fold rest in N, Ls, Len.
  destruct rs as [|r rs].
  - exists []. split; [reflexivity|]. change (Z.to_nat PAGE) with 20%nat in *. destruct rest; [constructor|discriminate].
  - set (rs1 := r :: rs) in *. assert (E : Z.to_nat (cur + zlen rs1 - 1) = (Z.to_nat (cur - 1) + length (firstn (Z.to_nat PAGE) rest))%nat) by (rewrite <- Len; unfold zlen; lia).
    assert (Es : skipn (Z.to_nat (cur + zlen rs1 - 1)) m = skipn (length (firstn (Z.to_nat PAGE) rest)) rest) by (rewrite E, <- skipn_skipn'; reflexivity).
    destruct (IH (cur + zlen rs1)) as (more & -> & Lm).
    { pose proof (zlen_nonneg rs1). lia. }
    { rewrite Es, skipn_length. pose proof (firstn_length (Z.to_nat PAGE) rest) as FL. rewrite <- Len in FL |- *. unfold rs1 in *. cbn [length] in *. lia. }
    cbn [bind]. eexists; split; [reflexivity|]. rewrite Es in Lm. unfold listed. rewrite (firstn_skipn_len _ (Z.to_nat PAGE) rest). apply Forall2_app; assumption.
Qed.

Lemma iter_range_ok : forall fuel start n, 1 <= start -> exists rs, iter_in_range (S (S fuel)) sr term start n = Ok rs /\ numbered term 1 (portion start n m) rs.
Proof.
  intros fuel start n H1. unfold iter_in_range. cbn [range_loop]. destruct (Z.ltb_spec start (start + n)) as [Hn|Hn].
  - destruct (Hpage start n H1) as (rs & -> & N). cbn [bind]. destruct rs as [|r rs]; [exists []; auto|]. set (rs1 := r :: rs) in *.
    destruct (numbered_listed _ _ _ _ N) as [_ Len].
    assert (Q : (if start + zlen rs1 <? start + n then do rs0 <- search_in_range sr term (Some (start + zlen rs1)) n ;;
        match rs0 with [] => Ok [] | _ :: _ => do more <- range_loop fuel sr term (start + zlen rs1 + zlen rs0) (start + n) n ;; Ok (rs0 ++ more) end else Ok []) = Ok []).
    { destruct (Z.ltb_spec (start + zlen rs1) (start + n)) as [Hl|_]; [|reflexivity].
      destruct (Hpage (start + zlen rs1) n) as (rs0 & -> & N0); [pose proof (zlen_nonneg rs1); lia|]. cbn [bind].
      assert (P : portion (start + zlen rs1) n m = []).
      { unfold portion in *. rewrite firstn_length, skipn_length in Len. rewrite skipn_all2; [apply firstn_nil|]. unfold zlen in *. lia. }
      rewrite P in N0. destruct rs0; [reflexivity|contradiction]. }
    rewrite Q. cbn [bind]. eexists; split; [reflexivity|]. rewrite app_nil_r. exact N.
  - exists []. split; [reflexivity|]. unfold portion. replace (Z.to_nat n) with 0%nat by lia. exact I.
Qed.
End Pages.

(** ** The two lists of an archive *)
Lemma storable_url : forall e, entry_storable e -> full_url e <> [].
Proof. intros e (_ & (x & H) & _). unfold full_url. destruct (e_ns e); [discriminate|]. discriminate. Qed.
Lemma prefix_len : forall p t, uprefix p t = true -> zlen p <= zlen t.
Proof.
  induction p as [|x p IH]; intros t H; [change (zlen (@nil Z)) with 0; apply zlen_nonneg|]. destruct t as [|y t]; [discriminate H|]. cbn in H. rewrite !zlen_cons.
  apply andb_prop in H as [_ H]. specialize (IH _ H). lia.
Qed.

Lemma articles_sorted : forall s L sr, consistent s L -> new_search s false = Ok sr -> exists es, iter_articles s None None = Ok es /\
  Forall2 (fun p e => get_entry_by_url_index (sr_zim sr) p = Ok e /\ sr_key sr p = Ok (enc (title e))) (sr_ptrs sr) es /\
  Forall (fun e => utf8_encode (title e) = Some (enc (title e))) es /\ StronglySorted title_le es /\ Forall entry_storable es.
Proof.
  intros s L sr C E. injection E as <-. cbn [sr_zim sr_key sr_ptrs]. destruct (articles_ok s L C) as (es & I & F & _ & So). exists es. split; [exact I|].
  assert (St : Forall entry_storable es).
  { rewrite Forall_forall. intros e He. destruct (forall2_in_r _ _ _ F _ He) as (i & _ & Hi). eapply consistent_storable; [exact C|]. eapply znth_in; eauto. }
  split; [|split; [|split; [exact So|exact St]]].
  - revert F. apply forall2_impl. intros i e Hi. split; [apply (index_iff _ _ _ _ C); exact Hi|]. destruct C as [(cells & <- & C) _ _ _ _]. eapply title_key_ok; eauto.
  - eapply Forall_impl; [|exact St]. intros e H. apply enc_title. exact H.
Qed.
Lemma entries_sorted : forall s L sr, consistent s L -> new_search s true = Ok sr -> exists es, entry_titles s es /\
  Forall2 (fun p e => get_entry_by_url_index (sr_zim sr) p = Ok e /\ sr_key sr p = Ok (enc (e_ns e ++ title e))) (sr_ptrs sr) es /\
  Forall (fun e => utf8_encode (e_ns e ++ title e) = Some (enc (e_ns e ++ title e))) es /\ StronglySorted nstitle_le es /\ Forall entry_storable es /\
  Sorting.Permutation.Permutation es L.
Proof.
  intros s L sr C E. unfold new_search in E. destruct (z_etpl s) as [t|] eqn:Et; [|discriminate]. injection E as <-. cbn [sr_zim sr_key sr_ptrs].
  destruct (entry_titles_ok s L t C Et) as (es & (t' & Et' & F) & P & So). rewrite Et in Et'. injection Et' as <-. exists es.
  assert (St : Forall entry_storable es).
  { rewrite Forall_forall. intros e He. eapply consistent_storable; [exact C|]. eapply Sorting.Permutation.Permutation_in; eauto. }
  split; [exists t; auto|]. split; [|split; [|split; [exact So|split; [exact St|exact P]]]].
  - revert F. apply forall2_impl. intros i e Hi. split; [exact Hi|]. apply (index_iff _ _ _ _ C) in Hi. destruct C as [(cells & <- & C) _ _ _ _]. eapply nstitle_key_ok; eauto.
  - eapply Forall_impl; [|exact St]. intros e H. apply enc_nstitle. exact H.
Qed.

Lemma filter_forall : forall A (P : A -> Prop) f l, Forall P l -> Forall (fun x => P x /\ f x = true) (filter f l).
Proof. intros A P f l H. rewrite Forall_forall in *. intros x Hx. apply filter_In in Hx as [H1 H2]. auto. Qed.

Theorem article_search : forall s L sr term start n, consistent s L -> new_search s false = Ok sr -> searchable term ->
  exists es, iter_articles s None None = Ok es /\ n_estimated sr term = Ok (zlen (titled term es)) /\
    (term <> [] \/ (forall e, In e es -> title e <> []) -> 1 <= start ->
     exists rs, search_in_range sr term (Some start) n = Ok rs /\ numbered term 1 (portion start n (titled term es)) rs).
Proof.
  intros s L sr term start n C E Hs. destruct (articles_sorted s L sr C E) as (es & I & F & En & So & St). exists es. split; [exact I|]. split.
  - exact (count_ok sr title es F En So term Hs).
  - intros Ht H1. apply (search_ok sr title es F En So term start n Hs); [|exact H1].
    eapply Forall_impl; [|apply (filter_forall _ (fun e => In e es /\ entry_storable e)); rewrite Forall_forall in *; intros e He; auto].
    intros e [[H2 H3] H4]. cbv beta in H4. split; [|split; [apply prefix_len; exact H4|apply storable_url; exact H3]].
    destruct Ht as [Ht|Ht]; [|auto]. intro Q. rewrite Q in H4. destruct term; [contradiction|discriminate].
Qed.
Theorem entry_search : forall s L sr term start n, consistent s L -> new_search s true = Ok sr -> searchable term ->
  exists es, entry_titles s es /\ n_estimated sr term = Ok (zlen (nstitled term es)) /\
    ((forall e, In e (nstitled term es) -> title e <> [] /\ e_ns e ++ title e <> term) -> 1 <= start ->
     exists rs, search_in_range sr term (Some start) n = Ok rs /\ numbered term 1 (portion start n (nstitled term es)) rs).
Proof.
  intros s L sr term start n C E Hs. destruct (entries_sorted s L sr C E) as (es & I & F & En & So & St & _). exists es. split; [exact I|]. split.
  - exact (count_ok sr (fun e => e_ns e ++ title e) es F En So term Hs).
  - intros Ht H1. apply (search_ok sr (fun e => e_ns e ++ title e) es F En So term start n Hs); [|exact H1].
    rewrite Forall_forall. intros e He. destruct (Ht e He) as [H2 H3]. apply filter_In in He as [H4 H5]. rewrite Forall_forall in St. specialize (St e H4).
    split; [exact H2|]. split; [|apply storable_url; exact St]. pose proof (prefix_len _ _ H5) as Hl. rewrite zlen_app in Hl.
    destruct St as (_ & (x & Hx) & _). assert (N1 : exists c, e_ns e = [c]).
    { destruct (e_ns e) as [|c [|d ns]] eqn:Ens; [discriminate|eauto|]. exfalso. cbn in Hx. destruct (enc1 c) as [y|] eqn:Ec; [|discriminate]. destruct (enc1 d) as [z|] eqn:Ed; [|discriminate].
      destruct (utf8_encode ns); [|discriminate]. injection Hx as Hx. apply (f_equal (@length _)) in Hx. rewrite !app_length in Hx. apply enc1_nonempty in Ec, Ed.
      destruct y; [congruence|]. destruct z; [congruence|]. cbn in Hx. lia. }
    destruct N1 as [c Hc]. rewrite Hc in *. change (zlen [c]) with 1 in Hl. destruct (Z.eq_dec (zlen term) (1 + zlen (title e))) as [Q|]; [|lia].
    exfalso. apply H3. symmetry. clear - H5 Q. change (1 + zlen (title e)) with (zlen [c] + zlen (title e)) in Q. rewrite <- zlen_app in Q. revert H5 Q. generalize ([c] ++ title e). clear. intro t. revert t. induction term as [|x p IH]; intros [|y t] H Q; try reflexivity; try discriminate.
    cbn in H. apply andb_prop in H as [H1 H2]. rewrite !zlen_cons in Q. f_equal; [lia|]. apply IH; [exact H2|lia].
Qed.

(** ** What the results say *)
Lemma uprefix_iff : forall p t, uprefix p t = true <-> exists rest, t = p ++ rest.
Proof.
  induction p as [|x p IH]; intro t; cbn [uprefix app]; [split; [intros _; exists t; reflexivity|reflexivity]|]. destruct t as [|y t]; [split; [discriminate|intros [r H]; discriminate]|].
  rewrite andb_true_iff, IH. split.
  - intros [H [r ->]]. exists r. f_equal. lia.
  - intros [r H]. injection H as -> ->. split; [lia|exists r; reflexivity].
Qed.
Lemma listed_urls : forall term l rs, listed term l rs -> map r_url rs = map full_url l /\ map r_title rs = map title l.
Proof. intros term l rs H. induction H as [|e r l rs [k ->] H [IH1 IH2]]; [auto|]. cbn [map r_url r_title]. rewrite IH1, IH2. auto. Qed.
Lemma portion_all : forall A n (l : list A), zlen l <= n -> portion 1 n l = l.
Proof. intros A n l H. unfold portion. cbn. apply firstn_all2. unfold zlen in H. lia. Qed.
Lemma sorted_map_in : forall A B (f : A -> B) (R : B -> B -> Prop) l, StronglySorted (fun x y => R (f x) (f y)) l -> StronglySorted R (map f l).
Proof.
  intros A B f R l H. induction H as [|x l S IH F]; [constructor|]. cbn [map]. constructor; [exact IH|]. rewrite Forall_forall in *.
  intros y Hy. apply in_map_iff in Hy as (z & <- & Hz). auto.
Qed.
Lemma sorted_filter : forall A (R : A -> A -> Prop) f l, StronglySorted R l -> StronglySorted R (filter f l).
Proof.
  intros A R f l H. induction H as [|x l S IH F]; [constructor|]. cbn [filter]. destruct (f x); [|exact IH]. constructor; [exact IH|].
  rewrite Forall_forall in *. intros y Hy. apply filter_In in Hy as [Hy _]. auto.
Qed.
Lemma nodup_map_filter : forall A B (f : A -> B) g l, NoDup (map f l) -> NoDup (map f (filter g l)).
Proof.
  intros A B f g. induction l as [|x l IH]; intro H; [constructor|]. cbn [map] in H. inversion H; subst. cbn [filter]. destruct (g x); [|auto]. cbn [map]. constructor; [|auto].
  intro Hin. apply in_map_iff in Hin as (y & E & Hy). apply filter_In in Hy as [Hy _]. apply H2. rewrite <- E. apply in_map. exact Hy.
Qed.
Lemma article_nodup : forall s L es, consistent s L -> iter_articles s None None = Ok es -> NoDup (map full_url es) /\ StronglySorted title_le es.
Proof.
  intros s L es C I. destruct (articles_ok s L C) as (es' & I' & F & N & So). rewrite I in I'. injection I' as <-. split; [|exact So].
  eapply urls_nodup; [apply (consistent_sorted _ _ C)|exact N|exact F].
Qed.
Lemma perm_nodup_urls : forall s L es, consistent s L -> Sorting.Permutation.Permutation es L -> NoDup (map full_url es).
Proof.
  intros s L es C P. eapply Sorting.Permutation.Permutation_NoDup; [apply Sorting.Permutation.Permutation_map, Sorting.Permutation.Permutation_sym; exact P|].
  pose proof (consistent_sorted _ _ C) as So. clear - So. induction So as [|e L So IH H]; [constructor|]. cbn [map]. constructor; [|exact IH].
  intro Hin. apply in_map_iff in Hin as (e' & E & He'). rewrite Forall_forall in H. specialize (H e' He'). unfold url_lt in H. rewrite E, ultb_irrefl in H. discriminate.
Qed.
Lemma filter_length_le : forall A (f : A -> bool) l, (length (filter f l) <= length l)%nat.
Proof. intros A f. induction l as [|x l IH]; [apply le_n|]. cbn. destruct (f x); cbn; lia. Qed.
