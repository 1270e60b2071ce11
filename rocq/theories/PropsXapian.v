(** C93: a search in an index shows the entries of all documents that match. *)
From Coq Require Import List ZArith Bool Lia Strings.Byte.
From Coq Require Import ZifyBool ZifyNat.
From Verif Require Import Base BaseProofs Utf8 Utf8Proofs Entry EntrySpec PointerList Archive ArchiveSpec ArchiveFacts ArchiveLaws PropsArchive Search SearchSpec SearchProofs PropsSearch XapianSearch.
Import ListNotations.
Open Scope Z_scope.

(** ** Specification *)
(** The data of a document is the namespace, a slash and the url. *)
Definition data_of (ns url : ustr) (d : document) : Prop := utf8_encode (ns ++ [47] ++ url) = Some (d_data d).
(** A document about the entry [e]. *)
Definition about (e : entry) (d : document) : Prop := data_of (e_ns e) (e_url e) d /\ 0 <= d_percent d <= 100.
(** The results for documents about the entries [es], numbered from [k] on. *)
Fixpoint found (k : Z) (es : list entry) (ds : list document) : list hit :=
  match es, ds with
  | e :: es, d :: ds => mkHit k (d_percent d) (full_url e) (title e) :: found (k + 1) es ds
  | _, _ => []
  end.

(** ** Proofs *)
Lemma found_len : forall es ds, Forall2 about es ds -> forall k, length (found k es ds) = length es.
Proof. intros es ds H. induction H; intro k; cbn [found length]; [reflexivity|]. rewrite IHForall2. reflexivity. Qed.
Lemma found_app : forall es ds, Forall2 about es ds -> forall es' ds' k, found k (es ++ es') (ds ++ ds') = found k es ds ++ found (k + zlen es) es' ds'.
Proof.
  intros es ds H. induction H as [|e d es ds A H IH]; intros es' ds' k; cbn [app found]; [unfold zlen; cbn; f_equal; lia|]. rewrite IH. f_equal. f_equal. f_equal. unfold zlen. cbn [length]. lia.
Qed.
Lemma forall2_firstn : forall A B (P : A -> B -> Prop) n l m, Forall2 P l m -> Forall2 P (firstn n l) (firstn n m).
Proof. intros A B P n. induction n as [|n IH]; intros l m H; [constructor|]. inversion H; subst; cbn [firstn]; constructor; auto. Qed.
Lemma forall2_skipn : forall A B (P : A -> B -> Prop) n l m, Forall2 P l m -> Forall2 P (skipn n l) (skipn n m).
Proof. intros A B P n. induction n as [|n IH]; intros l m H; [exact H|]. inversion H; subst; cbn [skipn]; [constructor|auto]. Qed.
Lemma forall2_len : forall A B (P : A -> B -> Prop) l m, Forall2 P l m -> length l = length m.
Proof. intros A B P l m H. induction H; cbn [length]; congruence. Qed.
Lemma nth_error_skipn_cons : forall A (l : list A) n x, nth_error l n = Some x -> skipn n l = x :: skipn (S n) l.
Proof. intros A l n. revert l. induction n as [|n IH]; intros [|y l] x E; try discriminate E; [cbn in *; congruence|]. cbn [skipn nth_error] in *. apply IH. exact E. Qed.
Lemma enc_drop : forall c url b, utf8_encode ([c] ++ [47] ++ url) = Some b -> exists b', utf8_encode (c :: url) = Some b'.
Proof.
  intros c url b H. cbn [app utf8_encode] in *. destruct (enc1 c); [|discriminate H]. destruct (enc1 47); [|discriminate H]. destruct (utf8_encode url); [eexists; reflexivity|discriminate H].
Qed.
Section Searching.
Variables (s : zim) (L : list entry) (matching : ustr -> list document) (term : ustr) (es : list entry).
Hypothesis C : consistent s L.
Hypothesis DS : Forall2 about es (matching term).
Hypothesis IN : incl es L.
Notation ds := (matching term).

Lemma hits_ok : forall fs ms k, Forall2 about fs ms -> incl fs L -> 1 <= k -> hits_of s (ranked (k - 1) ms) = Ok (found k fs ms).
Proof.
  intros fs ms k H. revert k. induction H as [|e d fs ms (A & PC) H IH]; intros k I K; [reflexivity|]. cbn [ranked hits_of found].
  assert (E : hit_of s (k - 1, d) = Ok (mkHit k (d_percent d) (full_url e) (title e))).
  { unfold hit_of. cbn [fst snd]. unfold decode. rewrite (decode_encode _ _ A). cbn [bind].
    assert (He : In e L) by (apply I; left; reflexivity). pose proof (consistent_storable _ _ _ C He) as ST.
    destruct (ns_char e ST) as (c & NC). rewrite NC. cbn [app skipn]. replace (c :: e_url e) with (full_url e) by (unfold full_url; rewrite NC; reflexivity).
    rewrite (proj2 (lookup_iff s L (full_url e) e C) (conj He eq_refl)). cbn [bind]. unfold new_hit. replace (k - 1 + 1) with k by lia. replace (1 <=? k) with true by lia. replace ((0 <=? d_percent d) && (d_percent d <=? 100)) with true by lia. cbn [negb].
    unfold full_url. rewrite NC. reflexivity. }
  rewrite E. cbn [bind]. replace (k - 1 + 1) with (k + 1 - 1) by lia. rewrite (IH (k + 1)); [reflexivity|intros x Hx; apply I; right; exact Hx|lia].
Qed.
Lemma page_ok : forall start n, 1 <= start -> 0 <= n -> xsearch_in_range s matching term (Some start) n = Ok (found start (portion start n es) (portion start n ds)).
Proof.
  intros start n H1 Hn. unfold xsearch_in_range, get_mset. replace (start - 1 <? 0) with false by lia. replace (n <? 0) with false by lia. cbn [orb bind]. apply hits_ok; [|intros x Hx; apply IN|exact H1].
  - apply forall2_firstn, forall2_skipn, DS.
  - unfold portion in Hx. assert (I : incl (firstn (Z.to_nat n) (skipn (Z.to_nat (start - 1)) es)) es).
    { intros y Hy. rewrite <- (firstn_skipn (Z.to_nat (start - 1)) es). apply in_or_app. right. rewrite <- (firstn_skipn (Z.to_nat n) (skipn _ es)). apply in_or_app. left. exact Hy. }
    exact (I x Hx).
Qed.
Lemma tail_ok : forall fuel cur, 1 <= cur -> (length (skipn (Z.to_nat (cur - 1)) es) < fuel)%nat ->
  xiter s matching fuel term cur = Ok (found cur (skipn (Z.to_nat (cur - 1)) es) (skipn (Z.to_nat (cur - 1)) ds)).
Proof.
  induction fuel as [|fuel IH]; intros cur H1 Hf; [lia|]. cbn [xiter]. rewrite page_ok by (unfold PAGE; lia). cbn [bind]. unfold portion.
  pose proof (forall2_skipn _ _ about (Z.to_nat (cur - 1)) _ _ DS) as DR. set (re := skipn (Z.to_nat (cur - 1)) es) in *. set (rd := skipn (Z.to_nat (cur - 1)) ds) in *.
  pose proof (forall2_firstn _ _ about (Z.to_nat PAGE) _ _ DR) as DP. pose proof (found_len _ _ DP cur) as FL.
  destruct (found cur (firstn (Z.to_nat PAGE) re) (firstn (Z.to_nat PAGE) rd)) as [|h hs] eqn:EF.
  - cbn [length] in FL. change (Z.to_nat PAGE) with 20%nat in FL. destruct re; [|discriminate FL]. reflexivity.
  - assert (NE : (0 < length (firstn (Z.to_nat PAGE) re))%nat) by (rewrite <- FL; cbn [length]; lia). rewrite <- EF in *. clear EF.
    assert (Z1 : zlen (found cur (firstn (Z.to_nat PAGE) re) (firstn (Z.to_nat PAGE) rd)) = zlen (firstn (Z.to_nat PAGE) re)) by (unfold zlen; rewrite FL; reflexivity).
    rewrite Z1. set (m := zlen (firstn (Z.to_nat PAGE) re)) in *. assert (M : 0 <= m) by apply zlen_nonneg.
    assert (LE : Z.to_nat m = length (firstn (Z.to_nat PAGE) re)) by (unfold m, zlen; lia). assert (LD : Z.to_nat m = length (firstn (Z.to_nat PAGE) rd)) by (rewrite LE; eapply forall2_len; exact DP).
    assert (S1 : forall A (l r : list A), r = skipn (Z.to_nat (cur - 1)) l -> Z.to_nat m = length (firstn (Z.to_nat PAGE) r) -> skipn (Z.to_nat (cur + m - 1)) l = skipn (Z.to_nat PAGE) r).
    { intros A l r E LL. replace (Z.to_nat (cur + m - 1)) with (Z.to_nat (cur - 1) + Z.to_nat m)%nat by lia. rewrite <- skipn_skipn', <- E, LL. pose proof (firstn_length (Z.to_nat PAGE) r) as F. destruct (Nat.le_gt_cases (length r) (Z.to_nat PAGE)).
      - rewrite !skipn_all2; [reflexivity|lia|lia].
      - rewrite F. f_equal. lia. }
    rewrite IH.
    + rewrite (S1 _ es re eq_refl LE), (S1 _ ds rd eq_refl LD). cbn [bind]. f_equal. symmetry. rewrite <- (firstn_skipn (Z.to_nat PAGE) re) at 1. rewrite <- (firstn_skipn (Z.to_nat PAGE) rd) at 1. apply found_app. exact DP.
    + lia.
    + rewrite (S1 _ es re eq_refl LE), skipn_length. change (Z.to_nat PAGE) with 20%nat in *. pose proof (firstn_length 20 re) as F. lia.
Qed.
End Searching.

(** *** C93, all results: whatever the index contains, if the documents that
    match are about entries of the archive, iterating shows these entries, each
    once, the best first and numbered from 1 on. *)
Theorem C93_all : forall s L matching term es fuel, consistent s L -> Forall2 about es (matching term) -> incl es L -> (length es < fuel)%nat ->
  xiter_all s matching fuel term = Ok (found 1 es (matching term)).
Proof. intros s L matching term es fuel C DS IN F. exact (tail_ok s L matching term es C DS IN fuel 1 ltac:(lia) F). Qed.
Lemma found_portion : forall es ds start n, 1 <= start -> Forall2 about es ds -> found start (portion start n es) (portion start n ds) = portion start n (found 1 es ds).
Proof.
  intros es ds start n H1 DS.
  assert (FS : forall m es ds k, Forall2 about es ds -> found (k + Z.of_nat m) (skipn m es) (skipn m ds) = skipn m (found k es ds)).
    { clear. induction m as [|m IH]; intros es ds k H; [cbn [skipn]; f_equal; lia|]. inversion H; subst; cbn [skipn found]; [reflexivity|]. rewrite <- IH by assumption. f_equal. lia. }
    assert (FF : forall m es ds k, Forall2 about es ds -> found k (firstn m es) (firstn m ds) = firstn m (found k es ds)).
    { clear. induction m as [|m IH]; intros es ds k H; [reflexivity|]. inversion H; subst; cbn [firstn found]; [reflexivity|]. rewrite IH by assumption. reflexivity. }
    unfold portion. rewrite FF by (apply forall2_skipn; exact DS). rewrite <- FS by exact DS. do 2 f_equal. lia.
Qed.
(** *** C93, a range of results: those from the [start]-th on, at most [n],
    with the numbers they have among all results. *)
Theorem C93_range : forall s L matching term es start n fuel, consistent s L -> Forall2 about es (matching term) -> incl es L -> 1 <= start -> (2 <= fuel)%nat ->
  xiter_in_range s matching fuel term start n = Ok (portion start n (found 1 es (matching term))).
Proof.
  intros s L matching term es start n fuel C DS IN H1 F. destruct fuel as [|[|fuel]]; [lia|lia|]. 
  pose proof (found_portion es (matching term) start n H1 DS) as FP.
  unfold xiter_in_range. cbn [xrange_loop]. destruct (Z.ltb_spec start (start + n)) as [Hn|Hn].
  - rewrite (page_ok s L matching term es C DS IN start n H1 ltac:(lia)). cbn [bind]. rewrite FP.
    destruct (portion start n (found 1 es (matching term))) as [|h hs] eqn:EP; [reflexivity|]. set (rs := h :: hs) in *.
    assert (Z0 : 0 <= zlen rs) by apply zlen_nonneg.
    assert (Q : (if start + zlen rs <? start + n then do rs0 <- xsearch_in_range s matching term (Some (start + zlen rs)) n ;; match rs0 with [] => Ok [] | _ :: _ => do more <- xrange_loop s matching fuel term (start + zlen rs + zlen rs0) (start + n) n ;; Ok (rs0 ++ more) end else Ok []) = Ok []).
    { destruct (Z.ltb_spec (start + zlen rs) (start + n)) as [Hl|_]; [|reflexivity]. rewrite (page_ok s L matching term es C DS IN) by lia. cbn [bind].
      assert (P : portion (start + zlen rs) n es = []).
      { unfold portion. rewrite skipn_all2; [apply firstn_nil|]. pose proof (f_equal (@length _) EP) as LL. unfold portion in LL. rewrite firstn_length, skipn_length, (found_len _ _ DS) in LL. fold rs in LL. unfold zlen in *. lia. }
      rewrite P. reflexivity. }
    rewrite Q. cbn [bind]. rewrite app_nil_r. reflexivity.
  - unfold portion. replace (Z.to_nat n) with 0%nat by lia. reflexivity.
Qed.
(** *** C93, an index that is out of date: if a document among the first twenty
    is about an url that is not in the archive, nothing is shown and EntryNotFound
    is raised. *)
Theorem C93_missing : forall s L matching term es d ds ns url fuel, consistent s L -> matching term = ds -> Forall2 about es (firstn (length es) ds) -> incl es L -> nth_error ds (length es) = Some d -> (length es < 20)%nat ->
  length ns = 1%nat -> data_of ns url d -> absent L (ns ++ url) -> (1 <= fuel)%nat -> xiter_all s matching fuel term = Err EntryNotFound.
Proof.
  intros s L matching term es d ds ns url fuel C E DS IN ND LT NS DD AB F. destruct fuel as [|fuel]; [lia|]. unfold xiter_all. cbn [xiter]. unfold xsearch_in_range, get_mset. cbn [orb bind Z.sub Z.ltb Z.compare Z.add Z.opp Z.pos_sub]. change (PAGE <? 0) with false. cbn [orb bind].
  rewrite E. change (zskip 0 ds) with ds. unfold ztake. change (Z.to_nat PAGE) with 20%nat.
  assert (SP : exists r, firstn 20 ds = firstn (length es) ds ++ d :: r).
  { exists (firstn (19 - length es) (skipn (S (length es)) ds)). rewrite <- (firstn_skipn (length es) ds) at 1. 
    assert (LE : length (firstn (length es) ds) = length es) by (rewrite <- (forall2_len _ _ _ _ _ DS); reflexivity). rewrite firstn_app, LE. rewrite firstn_firstn, Nat.min_r by lia. f_equal.
    rewrite (nth_error_skipn_cons _ ds (length es) d ND). replace (20 - length es)%nat with (S (19 - length es)) by lia. reflexivity. }
  destruct SP as (r & ->).
  assert (G : forall es ms k, Forall2 about es ms -> incl es L -> 1 <= k -> hits_of s (ranked (k - 1) (ms ++ d :: r)) = Err EntryNotFound).
  { clear - C DD AB NS. intros es ms k H. revert k. induction H as [|e x es ms A H IH]; intros k I K.
    - cbn [app ranked hits_of]. unfold hit_of. cbn [fst snd]. unfold decode. rewrite (decode_encode _ _ DD). cbn [bind]. destruct ns as [|c [|]]; try discriminate NS. cbn [app skipn].
      destruct (enc_drop c url) with (b := d_data d) as (b & Hb); [exact DD|]. rewrite (proj2 (missing_iff s L (c :: url) b C Hb) AB). reflexivity.
    - cbn [app ranked hits_of]. pose proof (hits_ok s L C [e] [x] k ltac:(constructor; [exact A|constructor]) ltac:(intros y [<-|[]]; apply I; left; reflexivity) K) as HO. cbn [ranked hits_of found] in HO.
      destruct (hit_of s (k - 1, x)) as [h|y]; [|discriminate HO]. cbn [bind] in HO |- *. replace (k - 1 + 1) with (k + 1 - 1) by lia. rewrite IH; [reflexivity|intros y Hy; apply I; right; exact Hy|lia]. }
  pose proof (G es _ 1 DS IN ltac:(lia)) as Q. change (1 - 1) with 0 in Q. rewrite Q. reflexivity.
Qed.

(** *** C93, one request for results: [start] is 1 if it is left out; positions
    below 1 and negative numbers of results are refused. *)
Theorem C93_request : forall s L matching term es start n, consistent s L -> Forall2 about es (matching term) -> incl es L ->
  xsearch_in_range s matching term start n =
    let first := match start with Some v => v | None => 1 end in
    if (1 <=? first) && (0 <=? n) then Ok (portion first n (found 1 es (matching term))) else Err OverflowErr.
Proof.
  intros s L matching term es start n C DS IN. set (first := match start with Some v => v | None => 1 end). cbv zeta.
  replace (xsearch_in_range s matching term start n) with (xsearch_in_range s matching term (Some first) n) by (destruct start; reflexivity).
  destruct (Z.leb_spec 1 first) as [H1|H1]; cbn [andb]; [destruct (Z.leb_spec 0 n) as [H2|H2]|].
  - rewrite (page_ok s L matching term es C DS IN first n H1 H2). f_equal. apply found_portion; assumption.
  - unfold xsearch_in_range, get_mset. replace (n <? 0) with true by lia. rewrite orb_true_r. reflexivity.
  - unfold xsearch_in_range, get_mset. replace (first - 1 <? 0) with true by lia. reflexivity.
Qed.

(** ** An index over the 21 articles of C50, in reverse, and one that is out of date *)
Definition article_doc (u : Z) : document := mkDocument [x43; x2f; bZ u] (u - 90).
Definition sample_index (term : ustr) : list document := match term with [] => map article_doc (rev letters) | _ => [article_doc 97; article_doc 123; article_doc 98] end.
Definition sample_hits : list entry := filter (fun e => ueqb (e_ns e) [67]) (entries many).
Lemma rev_filter_incl : forall (f : entry -> bool) l, incl (rev (filter f l)) l.
Proof. intros f l e He. rewrite <- in_rev in He. rewrite filter_In in He. apply He. Qed.
Example C93_example : consistent many (entries many) /\ Forall2 about (rev sample_hits) (sample_index []) /\ incl (rev sample_hits) (entries many) /\
  (do l <- xiter_all many sample_index 22 [] ;; Ok (map (fun h => (h_number h, h_percent h, h_url h)) (firstn 2 l), map h_number (skipn 19 l))) = Ok ([(1, 27, [67; 117]); (2, 26, [67; 116])], [20; 21]) /\
  (do l <- xiter_in_range many sample_index 2 [] 20 5 ;; Ok (map (fun h => (h_number h, h_url h)) l)) = Ok [(20, [67; 98]); (21, [67; 97])].
Proof.
  split; [exact many_consistent|].
  assert (A : Forall2 about (rev sample_hits) (sample_index [])).
  { assert (G : forall l m, forallb (fun p => match utf8_encode (e_ns (fst p) ++ [47] ++ e_url (fst p)) with Some b => if list_eq_dec Byte.byte_eq_dec b (d_data (snd p)) then true else false | None => false end && (0 <=? d_percent (snd p)) && (d_percent (snd p) <=? 100)) (combine l m) = true -> length l = length m -> Forall2 about l m).
    { induction l as [|e l IH]; intros [|d m] H LL; try discriminate LL; [constructor|]. cbn [combine forallb fst snd] in H. apply andb_prop in H as (H & H2). apply andb_prop in H as (H & H1). apply andb_prop in H as (H & H0).
      constructor; [|apply IH; [exact H2|cbn in LL; congruence]]. split; [|lia]. unfold data_of. destruct (utf8_encode (e_ns e ++ [47] ++ e_url e)); [|discriminate H]. destruct (list_eq_dec Byte.byte_eq_dec b (d_data d)) as [->|]; [reflexivity|discriminate H]. }
    apply G; vm_compute; reflexivity. }
  split; [exact A|]. split; [unfold sample_hits; apply rev_filter_incl|]. split; vm_compute; reflexivity.
Qed.
Example C93_missing_example : xiter_all many sample_index 22 [120] = Err EntryNotFound /\ absent (entries many) ([67] ++ [123]) /\ data_of [67] [123] (article_doc 123).
Proof.
  split; [vm_compute; reflexivity|]. split; [|reflexivity]. apply (missing_iff many (entries many) [67; 123] [x43; x7b] many_consistent eq_refl). vm_compute. reflexivity.
Qed.

Example C93_request_example : (do l <- xsearch_in_range many sample_index [] None 2 ;; Ok (map h_number l)) = Ok [1; 2] /\ xsearch_in_range many sample_index [] (Some 0) 2 = Err OverflowErr.
Proof. split; vm_compute; reflexivity. Qed.

Print Assumptions C93_all.
Print Assumptions C93_request.
Print Assumptions C93_range.
Print Assumptions C93_missing.
