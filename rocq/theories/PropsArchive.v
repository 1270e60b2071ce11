(** Properties of the entry layer of archives: C37-C43 (entries), C52, C53. *)
From Coq Require Import List ZArith Bool Lia Sorting.Sorted Sorting.Permutation.
From Verif Require Import Base Utf8 Entry EntrySpec PointerList SpaceAllocator SpaceAllocatorSpec Cluster Archive ArchiveSpec
  ArchiveProofs ArchiveFacts ArchiveObserve ArchiveLaws ArchiveSever.
Import ListNotations.
Open Scope Z_scope.

(** ** Concrete archives, for non-vacuity and for refutations *)
(** An archive without entries whose file has 200 bytes of other data. *)
Definition no_ptrs : plist := mkPlist [] true true 0.
Definition blank : zim := mkZim (repeat Byte.x00 200) no_ptrs (Some no_ptrs) no_ptrs None (new_allocator 200).
Definition page (ns : Z) (url : ustr) : went := fresh (mkEntry 0 [ns] url (Some url) (Content 0 0)).
Definition article (url : ustr) : went :=
  mkWent (mkEntry 0 [67] url (Some url) (Content 0 0)) (67 :: url) (Some true).
Definition redirect (ns : Z) (url : ustr) (target : Z) : went :=
  fresh (mkEntry MIMETYPE_ID_REDIRECT [ns] url (Some url) (Redirect target)).
Definition after (w : went) (s : zim) : zim := snd (write_entry 2 w s).

Lemma blank_consistent : consistent blank (entries blank).
Proof.
  assert (N : forall le L, lists le L []) by (intros le L; split; [constructor|exists []; split; constructor]).
  constructor; try discriminate; try reflexivity.
  - exists []. split; [reflexivity|]. constructor; cbn [blank z_upl z_file z_alloc z_atpl z_etpl no_ptrs pl_ptrs pl_mutable map]; try (constructor; fail); try reflexivity; auto.
    + split; constructor.
    + discriminate.
    + intros i e [].
    + intros t E. injection E as <-. apply N.
    + intros t E. injection E as <-. reflexivity.
  - intros t E. injection E as <-. intros i [H1 H2]. change (zlen (entries blank)) with 0 in H2. lia.
  - intros e r [].
Qed.

Ltac check_addable := constructor;
  [ split; [cbn; unfold MIMETYPE_ID_REDIRECT; lia|split; [eexists; reflexivity|split; [split; [eexists; reflexivity|cbn; intuition discriminate]|
      split; [eexists; split; [reflexivity|split; [eexists; reflexivity|cbn; intuition discriminate]]|cbn; unfold MIMETYPE_ID_REDIRECT; lia]]]]
  | cbn; first [discriminate | reflexivity]
  | intros e He; vm_compute in He; intuition (subst; discriminate)
  | intros e He; vm_compute in He; intuition (subst; discriminate)
  | eexists; reflexivity
  | intros r E; first [discriminate | injection E as <-; vm_compute; split; [discriminate|reflexivity]]
  | first [discriminate | reflexivity]
  | first [discriminate | reflexivity]
  | vm_compute; reflexivity ].

(** "Ca" (an article) and "Cb" (a redirect to it) *)
Definition two : zim := after (redirect 67 [98] 0) (after (article [97]) blank).
Lemma one_consistent : consistent (after (article [97]) blank) (entries (after (article [97]) blank)).
Proof.
  apply (add_step blank (article [97])); [exact blank_consistent|check_addable|vm_compute; reflexivity].
Qed.
Lemma two_consistent : consistent two (entries two).
Proof. apply (add_step (after (article [97]) blank) (redirect 67 [98] 0)); [exact one_consistent|check_addable|vm_compute; reflexivity]. Qed.
Definition Ca : ustr := [67; 97].
Definition Cb : ustr := [67; 98].
Definition lead (s : zim) (u : ustr) : option ustr := match get_entry_by_full_url s u with Ok e => target_url s e | Err _ => None end.
Lemma points_by : forall s u v, lead s u = Some v -> points s u v.
Proof. intros s u v H. unfold lead in H. destruct (get_entry_by_full_url s u) as [e|x] eqn:E; [|discriminate]. exists e. auto. Qed.
Ltac check_points := apply points_by; vm_compute; reflexivity.
Example two_contents : map full_url (entries two) = [Ca; Cb] /\ points two Cb Ca /\ article_urls two = Some [Ca] /\ roomy two (entries two).
Proof.
  split; [vm_compute; reflexivity|]. split; [check_points|]. split; [vm_compute; reflexivity|].
  intros p Hp. vm_compute in Hp. destruct Hp as [<-|[<-|[]]]; vm_compute; reflexivity.
Qed.

(** ** C37: url lookup sees every written entry *)
Theorem C37_added_entry_is_found : forall s L w n s', consistent s L -> addable L w -> write_entry (S (S n)) w s = (Ok tt, s') ->
  exists e', get_entry_by_full_url s' (full_url (w_entry w)) = Ok e' /\ same_entry (w_entry w) e' /\ target_url s' e' = target_url s (w_entry w).
Proof. intros s L w n s' C A W. exact (proj1 (add_lookup s L w n s' C A W)). Qed.

Theorem C37_added_content_is_equal : forall s L w n s', consistent s L -> addable L w -> write_entry (S (S n)) w s = (Ok tt, s') ->
  (forall r, e_kind (w_entry w) <> Redirect r) -> get_entry_by_full_url s' (full_url (w_entry w)) = Ok (w_entry w).
Proof.
  intros s L w n s' C A W K. destruct (C37_added_entry_is_found s L w n s' C A W) as (e' & H & Hs & _). rewrite (same_content _ _ Hs K) in H. exact H.
Qed.

Theorem C37_other_lookups_unchanged : forall s L w n s' u, consistent s L -> addable L w -> write_entry (S (S n)) w s = (Ok tt, s') ->
  u <> full_url (w_entry w) ->
  (forall e, get_entry_by_full_url s u = Ok e -> exists e', get_entry_by_full_url s' u = Ok e' /\ same_entry e e') /\
  (get_entry_by_full_url s u = Err EntryNotFound -> get_entry_by_full_url s' u = Err EntryNotFound).
Proof.
  intros s L w n s' u C A W Hu. destruct (add_lookup s L w n s' C A W) as (_ & H1 & H2). split; [|exact (H2 u Hu)].
  intros e He. destruct (H1 u e He) as (e' & G & Hs & _). eauto.
Qed.

(** The only way writing a new entry can fail is a spurious assertion (line 981),
    impossible when the entries lie behind the first [zlen L + 1] bytes; and the
    archive stays consistent, so that the theorems apply to any number of additions. *)
Theorem C37_writing_succeeds : forall s L w n, consistent s L -> addable L w -> roomy s L ->
  exists s' L', write_entry (S (S n)) w s = (Ok tt, s') /\ consistent s' L' /\ zlen L' = zlen L + 1.
Proof. intros s L w n C A R. destruct (add_outcome s L w n C A) as [H|[H _]]; [exact H|contradiction]. Qed.
Theorem C37_only_failure : forall s L w n r s', consistent s L -> addable L w -> write_entry (S (S n)) w s = (r, s') -> r = Ok tt \/ r = Err AssertionError.
Proof. intros s L w n r s' C A W. destruct (add_cases s L w n r s' C A W) as [[-> _]|[-> _]]; auto. Qed.
(** The bound on the recursion depth is immaterial. *)
Theorem C37_depth : forall n m w s, (n <= m)%nat -> fst (write_entry n w s) <> Err Diverge -> write_entry m w s = write_entry n w s.
Proof. exact write_entry_depth. Qed.

Example C37_example : fst (write_entry 2 (page 67 [97; 97]) two) = Ok tt /\ addable (entries two) (page 67 [97; 97]) /\
  map full_url (entries (after (page 67 [97; 97]) two)) = [Ca; [67; 97; 97]; Cb].
Proof. split; [vm_compute; reflexivity|]. split; [check_addable|vm_compute; reflexivity]. Qed.

(** ** C38: redirect targets survive additions *)
Theorem C38_redirects_survive_additions : forall s L w n s' u v, consistent s L -> addable L w -> write_entry (S (S n)) w s = (Ok tt, s') ->
  points s u v -> points s' u v.
Proof.
  intros s L w n s' u v C A W (e & He & Ht). destruct (add_lookup s L w n s' C A W) as (_ & H1 & _). destruct (H1 u e He) as (e' & G & _ & Ht').
  exists e'. split; [exact G|]. rewrite Ht'. exact Ht.
Qed.
Theorem C38_no_new_redirects : forall s L w n s' u v, consistent s L -> addable L w -> write_entry (S (S n)) w s = (Ok tt, s') ->
  u <> full_url (w_entry w) -> points s' u v -> points s u v.
Proof.
  intros s L w n s' u v C A W Hu (e' & He' & Ht). destruct (add_lookup s L w n s' C A W) as (_ & H1 & H2).
  destruct (get_entry_by_full_url s u) as [e|x] eqn:E.
  - destruct (H1 u e E) as (e1 & G & _ & Ht'). rewrite He' in G. injection G as <-. exists e. split; [exact E|]. congruence.
  - exfalso. destruct (utf8_encode u) as [b|] eqn:Eb.
    + assert (absent L u). { intros d Hd Hdu. assert (get_entry_by_full_url s u = Ok d) by (apply (lookup_iff _ _ _ _ C); auto). congruence. }
      rewrite (H2 u Hu) in He'; [discriminate|]. apply (missing_iff _ _ _ _ C Eb). exact H.
    + rewrite (lookup_unencodable s' u Eb) in He'. discriminate.
Qed.
(** inserting before, between and behind the redirect and its target *)
Example C38_example : points (after (page 66 [97]) two) Cb Ca /\ points (after (page 67 [97; 97]) two) Cb Ca /\ points (after (page 68 [97]) two) Cb Ca.
Proof. split; [|split]; check_points. Qed.

(** ** C41: title lists stay complete and sorted *)
Theorem C41_articles : forall s L w n s' us, consistent s L -> addable L w -> write_entry (S (S n)) w s = (Ok tt, s') -> article_urls s = Some us ->
  exists us', article_urls s' = Some us' /\
    (w_force w = Some true -> Permutation us' (full_url (w_entry w) :: us)) /\ (w_force w <> Some true -> Permutation us' us).
Proof. exact add_articles. Qed.
Theorem C41_articles_sorted : forall s L w n s' es, consistent s L -> addable L w -> write_entry (S (S n)) w s = (Ok tt, s') ->
  iter_articles s' None None = Ok es -> StronglySorted title_le es.
Proof.
  intros s L w n s' es C A W. destruct (add_outcome s L w n C A) as [(s1 & L' & W1 & C' & _)|(_ & s1 & W1)]; rewrite W in W1; [|discriminate].
  injection W1 as <-. apply (articles_sorted s' L' es C').
Qed.
Theorem C41_entry_titles : forall s L w n s' es, consistent s L -> addable L w -> write_entry (S (S n)) w s = (Ok tt, s') -> entry_titles s es ->
  exists es', entry_titles s' es' /\ Permutation (map full_url es') (full_url (w_entry w) :: map full_url es) /\ StronglySorted nstitle_le es'.
Proof. exact add_entry_titles. Qed.
Example C41_example : article_urls (after (article [65]) two) = Some [[67; 65]; Ca] /\ article_urls (after (article [122]) two) = Some [Ca; [67; 122]] /\
  addable (entries two) (article [65]) /\ addable (entries two) (article [122]).
Proof. split; [vm_compute; reflexivity|]. split; [vm_compute; reflexivity|]. split; check_addable. Qed.

(** ** C39: redirect targets survive edits *)
Definition C39_full_statement : Prop := forall s L i e0 w n s', consistent s L -> rewritable s L i e0 w -> write_entry (S (S n)) w s = (Ok tt, s') ->
  (forall u v, u <> full_url e0 -> points s u v -> points s' u (renamed (full_url e0) (full_url (w_entry w)) v)) /\
  (forall v, target_url s (w_entry w) = Some v -> points s' (full_url (w_entry w)) (renamed (full_url e0) (full_url (w_entry w)) v)).

(** Holds for edits that change neither the url nor the size ... *)
Theorem C39_in_place_partial : forall s L i e0 w n, consistent s L -> rewritable s L i e0 w -> stays e0 (w_entry w) ->
  exists s', write_entry (S n) w s = (Ok tt, s') /\
    get_entry_by_full_url s' (full_url e0) = Ok (w_entry w) /\
    (forall u v, u <> full_url e0 -> points s u v -> points s' u v) /\
    (forall v, target_url s (w_entry w) = Some v -> points s' (full_url e0) v).
Proof.
  intros s L i e0 w n C RW ST. destruct (edit_in_place s L i e0 w n C RW ST) as (s' & W & _ & G & T & O & _). exists s'. split; [exact W|]. split; [exact G|]. split.
  - intros u v Hu (e & He & Ht). destruct (O u e Hu He) as [G1 T1]. exists e. split; [exact G1|congruence].
  - intros v Hv. exists (w_entry w). split; [exact G|congruence].
Qed.
(** ... and for edits changing url or size under the conditions of [movable]. *)
Theorem C39_moved_partial : forall s L i e0 w n s', consistent s L -> rewritable s L i e0 w -> ~ stays e0 (w_entry w) -> movable s L i e0 (w_entry w) ->
  write_entry (S (S n)) w s = (Ok tt, s') ->
  (exists e', get_entry_by_full_url s' (full_url (w_entry w)) = Ok e' /\ same_entry (w_entry w) e') /\
  (forall u v, u <> full_url e0 -> points s u v -> points s' u (renamed (full_url e0) (full_url (w_entry w)) v)) /\
  (forall v, target_url s (w_entry w) = Some v -> points s' (full_url (w_entry w)) (renamed (full_url e0) (full_url (w_entry w)) v)).
Proof.
  intros s L i e0 w n s' C RW NS MV W. destruct (edit_moved s L i e0 w n s' C RW NS MV W) as (_ & (e' & G & Hs & T) & O). split; [eauto|]. split.
  - intros u v Hu (d & Hd & Ht). destruct (O u d Hu Hd) as (d' & G' & _ & T'). exists d'. split; [exact G'|]. rewrite T', Ht. reflexivity.
  - intros v Hv. exists e'. split; [exact G|]. rewrite T, Hv. reflexivity.
Qed.
Theorem C39_writing_succeeds_partial : forall s L i e0 w n, consistent s L -> rewritable s L i e0 w -> movable s L i e0 (w_entry w) -> roomy s L ->
  exists s', write_entry (S (S n)) w s = (Ok tt, s').
Proof. intros s L i e0 w n C RW MV R. destruct (edit_outcome s L i e0 w n C RW MV) as [H|[H _]]; [exact H|contradiction]. Qed.

(** Refutation: "Ca", "Cb" and a redirect "Cr" to "Cb"; renaming "Cb" to "Cbb"
    (same position in the url list) makes the redirect lead to "Ca". *)
Definition three : zim := after (redirect 67 [114] 1) (after (page 67 [98]) (after (article [97]) blank)).
Lemma three_consistent : consistent three (entries three).
Proof.
  apply (add_step (after (page 67 [98]) (after (article [97]) blank)) (redirect 67 [114] 1)); [|check_addable|vm_compute; reflexivity].
  apply (add_step (after (article [97]) blank) (page 67 [98])); [exact one_consistent|check_addable|vm_compute; reflexivity].
Qed.
Definition rename_b (u : ustr) : went := mkWent (mkEntry 0 [67] u (Some [98]) (Content 0 0)) Cb None.
Ltac check_rewritable := constructor;
  [ vm_compute; reflexivity
  | reflexivity
  | split; [cbn; unfold MIMETYPE_ID_REDIRECT; lia|split; [eexists; reflexivity|split; [split; [eexists; reflexivity|cbn; intuition discriminate]|
      split; [eexists; split; [reflexivity|split; [eexists; reflexivity|cbn; intuition discriminate]]|cbn; unfold MIMETYPE_ID_REDIRECT; lia]]]]
  | cbn; first [discriminate | reflexivity]
  | first [left; reflexivity | right; intros e He; vm_compute in He; intuition (subst; discriminate)]
  | intros r E; first [discriminate | injection E as <-; vm_compute; split; [discriminate|reflexivity]]
  | exists false; split; [vm_compute; reflexivity|discriminate] ].
Theorem C39_refuted : ~ C39_full_statement.
Proof.
  intro H. specialize (H three (entries three) 1 (w_entry (page 67 [98])) (rename_b [98; 98]) O (after (rename_b [98; 98]) three) three_consistent).
  destruct H as [H _]; [check_rewritable|vm_compute; reflexivity|].
  destruct (H [67; 114] Cb) as (e & He & Ht); [discriminate|check_points|].
  assert (E : points (after (rename_b [98; 98]) three) [67; 114] Ca) by check_points.
  destruct E as (e1 & He1 & Ht1). rewrite He in He1. injection He1 as <-. rewrite Ht in Ht1. discriminate.
Qed.
(** Rewriting the first entry with a different size while a redirect leads to it raises. *)
Example C39_first_entry_raises :
  fst (write_entry 2 (mkWent (mkEntry 0 [67] [97] (Some [97; 97]) (Content 0 0)) Ca None) two) = Err ValueError.
Proof. vm_compute. reflexivity. Qed.
(** The partial theorem applies to renaming "Cb" to "Cs" (behind the redirect). *)
Example C39_example : consistent three (entries three) /\ rewritable three (entries three) 1 (w_entry (page 67 [98])) (rename_b [115]) /\
  movable three (entries three) 1 (w_entry (page 67 [98])) (w_entry (rename_b [115])) /\
  points three [67; 114] Cb /\ points (after (rename_b [115]) three) [67; 114] [67; 115].
Proof.
  split; [exact three_consistent|]. split; [check_rewritable|]. split.
  { constructor; [discriminate|discriminate| |intro H; vm_compute in H; discriminate]. intros d Hd Hne Hk. split; [lia|]. exists (w_entry (redirect 67 [114] 1)). split; [vm_compute; tauto|left; split; vm_compute; reflexivity]. }
  split; check_points.
Qed.

(** ** C40: main page *)
Definition C40_full_statement : Prop := forall s L w n s', consistent s L -> addable L w -> write_entry (S (S n)) w s = (Ok tt, s') -> main_url s' = main_url s.

Theorem C40_additions_partial : forall s L w n s' e, consistent s L -> addable L w -> write_entry (S (S n)) w s = (Ok tt, s') ->
  get_mainpage_entry s = Ok e ->
  (url_lt e (w_entry w) \/ exists x, In x L /\ url_lt (w_entry w) x /\ url_lt x e) -> main_url s' = main_url s.
Proof. exact add_main. Qed.
Theorem C40_edits_in_place_partial : forall s L i e0 w n s', consistent s L -> rewritable s L i e0 w -> stays e0 (w_entry w) ->
  write_entry (S n) w s = (Ok tt, s') -> main_url s' = main_url s.
Proof.
  intros s L i e0 w n s' C RW ST W. destruct (edit_in_place s L i e0 w n C RW ST) as (s1 & W1 & _ & _ & _ & _ & _ & M). rewrite W in W1. injection W1 as <-. exact M.
Qed.
Theorem C40_edits_partial : forall s L i e0 w n s' e, consistent s L -> rewritable s L i e0 w -> ~ stays e0 (w_entry w) -> movable s L i e0 (w_entry w) ->
  write_entry (S (S n)) w s = (Ok tt, s') -> get_mainpage_entry s = Ok e -> e <> e0 ->
  (url_lt e (w_entry w) \/ exists x, In x L /\ x <> e0 /\ url_lt (w_entry w) x /\ url_lt x e) -> main_url s' = main_url s.
Proof. exact edit_main. Qed.
(** In every other case an added entry takes the place of the main page. *)
Theorem C40_defect : forall s L w n s' e, consistent s L -> addable L w -> write_entry (S (S n)) w s = (Ok tt, s') ->
  get_mainpage_entry s = Ok e -> url_lt (w_entry w) e -> (forall x, In x L -> url_lt (w_entry w) x -> url_lt x e -> False) ->
  main_url s' = Some (full_url (w_entry w)).
Proof. exact add_before_main. Qed.

(** A realistic history: add "Ca", set it as main page (redirect "WmainPage"),
    then add metadata "Mx". *)
Definition with_main : zim := snd (set_mainpage_url keep_blob 2 (Some [97]) (after (article [97]) blank)).
Definition main_redirect : went := fresh (mkEntry MIMETYPE_ID_REDIRECT [87] (tl URL_MAINPAGE_REDIRECT) (Some [97]) (Redirect 0)).
Definition before_main : zim := after main_redirect (after (article [97]) blank).
Lemma before_main_consistent : consistent before_main (entries before_main).
Proof. apply (add_step (after (article [97]) blank) main_redirect); [exact one_consistent|check_addable|vm_compute; reflexivity]. Qed.
Lemma with_main_consistent : consistent with_main (entries with_main).
Proof.
  assert (W : with_main = set_main (Some 1) before_main) by (vm_compute; reflexivity).
  assert (E : entries with_main = entries before_main) by (vm_compute; reflexivity).
  rewrite E, W. apply main_step; [exact before_main_consistent|]. split; [discriminate|vm_compute; reflexivity].
Qed.
Example C40_history : fst (set_mainpage_url keep_blob 2 (Some [97]) (after (article [97]) blank)) = Ok true /\
  main_url with_main = Some URL_MAINPAGE_REDIRECT /\ main_url (after (page 77 [120]) with_main) = Some [77; 120].
Proof. split; [|split]; vm_compute; reflexivity. Qed.
Theorem C40_refuted : ~ C40_full_statement.
Proof.
  intro H. specialize (H with_main (entries with_main) (page 77 [120]) O (after (page 77 [120]) with_main) with_main_consistent).
  assert (E : main_url (after (page 77 [120]) with_main) = main_url with_main) by (apply H; [check_addable|vm_compute; reflexivity]).
  vm_compute in E. discriminate.
Qed.
(** The partial theorem applies to adding "B" in front of everything. *)
Example C40_example : addable (entries with_main) (page 66 [120]) /\
  (exists e, get_mainpage_entry with_main = Ok e /\ exists x, In x (entries with_main) /\ url_lt (w_entry (page 66 [120])) x /\ url_lt x e) /\
  main_url (after (page 66 [120]) with_main) = Some URL_MAINPAGE_REDIRECT.
Proof.
  split; [check_addable|]. split; [|vm_compute; reflexivity].
  exists (mkEntry MIMETYPE_ID_REDIRECT [87] (tl URL_MAINPAGE_REDIRECT) (Some [97]) (Redirect 0)). split; [vm_compute; reflexivity|]. exists (w_entry (article [97])).
  split; [vm_compute; auto|]. split; vm_compute; reflexivity.
Qed.

(** ** C42: removal *)
Definition C42_full_statement : Prop := forall s L e0, consistent s L -> In e0 L -> exists n s',
  remove_entry keep_blob n (full_url e0) s = (Ok tt, s') /\
  (forall x, doomed s (full_url e0) x -> get_entry_by_full_url s' x = Err EntryNotFound) /\
  (forall x e, ~ doomed s (full_url e0) x -> get_entry_by_full_url s x = Ok e ->
     exists e', get_entry_by_full_url s' x = Ok e' /\ same_entry e e' /\ target_url s' e' = target_url s e) /\
  (forall us, article_urls s = Some us -> exists us', article_urls s' = Some us' /\ forall u, In u us' <-> In u us /\ ~ doomed s (full_url e0) u) /\
  (forall e, get_mainpage_entry s = Ok e -> ~ doomed s (full_url e0) (full_url e) -> main_url s' = main_url s).

Theorem C42_removal_partial : forall s L i e0 n s', consistent s L -> removable s L i e0 -> remove_entry keep_blob (S (S n)) (full_url e0) s = (Ok tt, s') ->
  (exists L', consistent s' L') /\
  get_entry_by_full_url s' (full_url e0) = Err EntryNotFound /\
  (forall u e, u <> full_url e0 -> get_entry_by_full_url s u = Ok e ->
     exists e', get_entry_by_full_url s' u = Ok e' /\ same_entry e e' /\ target_url s' e' = target_url s e) /\
  (forall u, get_entry_by_full_url s u = Err EntryNotFound -> get_entry_by_full_url s' u = Err EntryNotFound) /\
  main_url s' = (if opt_eqb (z_main s) (Some i) then None else main_url s) /\
  (forall us, article_urls s = Some us -> exists us', article_urls s' = Some us' /\ NoDup us' /\ forall u, In u us' <-> In u us /\ u <> full_url e0).
Proof. exact remove_observed. Qed.
Theorem C42_removal_succeeds_partial : forall s L i e0 n, consistent s L -> removable s L i e0 -> roomy s L ->
  exists s', remove_entry keep_blob (S (S n)) (full_url e0) s = (Ok tt, s').
Proof. intros s L i e0 n C RM R. destruct (remove_outcome s L i e0 n C RM) as [H|[H _]]; [exact H|contradiction]. Qed.

(** Refutation: removing the non-article "C0" leaves the article "Ca" unlisted:
    the article list refers to an entry that does not exist. *)
Definition image_first : zim := after (page 67 [48]) (after (article [97]) blank).
Lemma image_first_consistent : consistent image_first (entries image_first).
Proof. apply (add_step (after (article [97]) blank) (page 67 [48])); [exact one_consistent|check_addable|vm_compute; reflexivity]. Qed.
Lemma remove_fuel_image : forall n, snd (remove_entry keep_blob (S (S n)) [67; 48] image_first) = snd (remove_entry keep_blob 2 [67; 48] image_first).
Proof. intro n. vm_compute. reflexivity. Qed.
Theorem C42_refuted : ~ C42_full_statement.
Proof.
  intro H. destruct (H image_first (entries image_first) (w_entry (page 67 [48])) image_first_consistent) as (n & s' & W & _ & _ & A & _); [vm_compute; auto|].
  destruct (A [Ca]) as (us' & E & _); [vm_compute; reflexivity|].
  assert (Es : article_urls s' = None).
  { destruct n as [|[|n]]; [vm_compute in W; discriminate|vm_compute in W; injection W as <-; vm_compute; reflexivity|].
    replace s' with (snd (remove_entry keep_blob (S (S n)) (full_url (w_entry (page 67 [48]))) image_first)) by (rewrite W; reflexivity).
    change (full_url (w_entry (page 67 [48]))) with [67; 48]. rewrite remove_fuel_image. vm_compute. reflexivity. }
  congruence.
Qed.
(** Removing the first entry while a redirect leads to it raises. *)
Example C42_first_entry_raises : fst (remove_entry keep_blob 5 Ca two) = Err ValueError.
Proof. vm_compute. reflexivity. Qed.
(** The partial theorem applies to the redirect "Cb" of [two]. *)
Example C42_example : consistent two (entries two) /\ removable two (entries two) 1 (w_entry (redirect 67 [98] 0)) /\
  map full_url (entries (snd (remove_entry keep_blob 2 Cb two))) = [Ca].
Proof.
  split; [exact two_consistent|]. split; [|vm_compute; reflexivity]. constructor.
  - vm_compute. reflexivity.
  - intros d Hd Hne. vm_compute in Hd. destruct Hd as [<-|[<-|[]]]; discriminate.
  - right. intros j Hj. vm_compute in Hj. destruct Hj as [<-|[]]. reflexivity.
Qed.

(** With its redirects: everything that leads to the entry is gone, everything
    else is as it was. *)
Theorem C42_removal_with_redirects_partial : forall s L u n, consistent s L -> severable s u -> roomy s L ->
  exists s', remove_entry keep_blob (S (S (S n))) u s = (Ok tt, s') /\ (exists L', consistent s' L') /\
  (forall x, doomed s u x -> get_entry_by_full_url s' x = Err EntryNotFound) /\
  (forall x e, ~ doomed s u x -> get_entry_by_full_url s x = Ok e ->
     exists e', get_entry_by_full_url s' x = Ok e' /\ same_entry e e' /\ target_url s' e' = target_url s e) /\
  (forall x, get_entry_by_full_url s x = Err EntryNotFound -> get_entry_by_full_url s' x = Err EntryNotFound) /\
  (forall m, main_url s' = Some m <-> main_url s = Some m /\ ~ doomed s u m) /\
  (forall us, article_urls s = Some us -> exists us', article_urls s' = Some us' /\ NoDup us' /\ forall x, In x us' <-> In x us /\ ~ doomed s u x).
Proof.
  intros s L u n C SV R. destruct (sever_law s L u n C SV R) as (s' & L' & W & C' & [H1 H2 H3 H4 H5]). exists s'. split; [exact W|]. split; [eauto|]. auto.
Qed.
(** It applies to "Cb" in an archive with "C0", "Cb" and the redirects "Cd" and
    "Ce" to "Cb"; all of them but "C0" go. *)
Definition with_links : zim := after (redirect 67 [101] 1) (after (redirect 67 [100] 1) (after (page 67 [98]) (after (page 67 [48]) blank))).
Lemma no_articles_consistent : consistent (after (page 67 [98]) (after (page 67 [48]) blank)) (entries (after (page 67 [98]) (after (page 67 [48]) blank))).
Proof.
  apply (add_step (after (page 67 [48]) blank) (page 67 [98])); [|check_addable|vm_compute; reflexivity].
  apply (add_step blank (page 67 [48])); [exact blank_consistent|check_addable|vm_compute; reflexivity].
Qed.
Lemma with_links_consistent : consistent with_links (entries with_links).
Proof.
  apply (add_step (after (redirect 67 [100] 1) (after (page 67 [98]) (after (page 67 [48]) blank))) (redirect 67 [101] 1)); [|check_addable|vm_compute; reflexivity].
  apply (add_step (after (page 67 [98]) (after (page 67 [48]) blank)) (redirect 67 [100] 1)); [exact no_articles_consistent|check_addable|vm_compute; reflexivity].
Qed.
(** All redirects of an archive. *)
Definition links (s : zim) : list (ustr * ustr) :=
  flat_map (fun e => match target_url s e with Some v => [(full_url e, v)] | None => [] end) (entries s).
Lemma points_links : forall s x y, consistent s (entries s) -> points s x y -> In (x, y) (links s).
Proof.
  intros s x y C (e & G & T). apply (lookup_iff _ _ _ _ C) in G as [He <-]. apply in_flat_map. exists e. split; [exact He|]. rewrite T. left. reflexivity.
Qed.
Example C42_redirects_example : severable with_links Cb /\ roomy with_links (entries with_links) /\
  doomed with_links Cb [67; 101] /\ map full_url (entries (snd (remove_entry keep_blob 3 Cb with_links))) = [[67; 48]].
Proof.
  assert (P : forall x y, points with_links x y -> (x = [67; 100] \/ x = [67; 101]) /\ y = Cb).
  { intros x y H. apply (points_links _ _ _ with_links_consistent) in H. replace (links with_links) with [([67; 100], Cb); ([67; 101], Cb)] in H by (vm_compute; reflexivity).
    destruct H as [Q|[Q|[]]]; injection Q as <- <-; auto. }
  split; [|split; [|split]].
  - constructor.
    + eexists. vm_compute. reflexivity.
    + intros x y H N _ H'. apply P in H as [H _]. apply P in H' as [_ H']. subst y. destruct H as [Q|Q]; discriminate Q.
    + intros y _ _. exists [67; 48]. eexists. split; vm_compute; reflexivity.
    + intros y H _. apply P in H as [[->| ->] _]; left; vm_compute; reflexivity.
    + intros us x E _. right. replace (article_urls with_links) with (Some (@nil ustr)) in E by (vm_compute; reflexivity). injection E as <-. intros y [].
  - intros p Hp. vm_compute in Hp. repeat (destruct Hp as [<-|Hp]; [vm_compute; reflexivity|]). destruct Hp.
  - right. apply leads_one. check_points.
  - vm_compute. reflexivity.
Qed.

(** Also without any articles removal fails: a redirect directly in front of
    its target takes the other redirects along, which are then not found.
    Here "Ca" and "Cd" lead to "Cb". *)
Definition crowded : zim := after (redirect 67 [100] 2) (after (redirect 67 [97] 1) (after (page 67 [98]) (after (page 67 [48]) blank))).
Lemma crowded_consistent : consistent crowded (entries crowded).
Proof.
  apply (add_step (after (redirect 67 [97] 1) (after (page 67 [98]) (after (page 67 [48]) blank))) (redirect 67 [100] 2)); [|check_addable|vm_compute; reflexivity].
  apply (add_step (after (page 67 [98]) (after (page 67 [48]) blank)) (redirect 67 [97] 1)); [exact no_articles_consistent|check_addable|vm_compute; reflexivity].
Qed.
Theorem C42_interference_refuted : ~ (forall s L e0, consistent s L -> article_urls s = Some [] -> roomy s L -> In e0 L -> (exists e, In e L /\ url_lt e e0) ->
  exists n s', remove_entry keep_blob n (full_url e0) s = (Ok tt, s')).
Proof.
  intro H. destruct (H crowded (entries crowded) (w_entry (page 67 [98])) crowded_consistent) as (n & s' & W).
  - vm_compute. reflexivity.
  - intros p Hp. vm_compute in Hp. repeat (destruct Hp as [<-|Hp]; [vm_compute; reflexivity|]). destruct Hp.
  - vm_compute. auto.
  - exists (w_entry (page 67 [48])). split; [vm_compute; auto|vm_compute; reflexivity].
  - assert (E : forall n, fst (remove_entry keep_blob n Cb crowded) <> Ok tt).
    { intros [|[|[|[|m]]]]; vm_compute; discriminate. }
    apply (E n). change Cb with (full_url (w_entry (page 67 [98]))). rewrite W. reflexivity.
Qed.
Example C42_interference : points crowded Ca Cb /\ points crowded [67; 100] Cb /\ fst (remove_entry keep_blob 9 Cb crowded) = Err EntryNotFound.
Proof. split; [check_points|]. split; [check_points|vm_compute; reflexivity]. Qed.

(** ** C43 (entries): writing never clobbers live data *)
(** A new entry goes to bytes not in use; every byte in use that belongs neither
    to a redirect (which is renumbered in place) keeps its value. *)
Theorem C43_adding_entries : forall s L w n s', consistent s L -> addable L w -> write_entry (S (S n)) w s = (Ok tt, s') ->
  exists off,
    (forall x, off <= x < off + span (w_entry w) -> ~ in_use (z_alloc s) x /\ in_use (z_alloc s') x) /\
    (forall x, in_use (z_alloc s) x -> in_use (z_alloc s') x) /\
    (forall x, 0 <= x < zlen (z_file s) -> in_use (z_alloc s) x -> outside s (full_url (w_entry w)) x ->
       nth_error (z_file s') (Z.to_nat x) = nth_error (z_file s) (Z.to_nat x)).
Proof. exact add_bytes. Qed.
Theorem C43_editing_entries_partial : forall s L i e0 w n s', consistent s L -> rewritable s L i e0 w -> stays e0 (w_entry w) \/ movable s L i e0 (w_entry w) ->
  write_entry (S (S n)) w s = (Ok tt, s') ->
  forall x, 0 <= x < zlen (z_file s) -> in_use (z_alloc s) x -> outside s (full_url e0) x ->
    in_use (z_alloc s') x /\ nth_error (z_file s') (Z.to_nat x) = nth_error (z_file s) (Z.to_nat x).
Proof. exact edit_bytes. Qed.
Theorem C43_removing_entries_partial : forall s L i e0 n s', consistent s L -> removable s L i e0 -> remove_entry keep_blob (S (S n)) (full_url e0) s = (Ok tt, s') ->
  forall x, 0 <= x < zlen (z_file s) -> outside s (full_url e0) x ->
    (in_use (z_alloc s) x -> in_use (z_alloc s') x) /\ nth_error (z_file s') (Z.to_nat x) = nth_error (z_file s) (Z.to_nat x).
Proof. exact remove_bytes. Qed.
(** the 200 bytes in front of the entries of [two] are in use and outside *)
Example C43_example : in_use (z_alloc two) 7 /\ outside two [67; 99] 7 /\ addable (entries two) (page 67 [99]).
Proof.
  split; [|split; [|check_addable]].
  - split; [vm_compute; split; [discriminate|reflexivity]|]. intros (b & Hb & _). vm_compute in Hb. exact Hb.
  - intros p e Hp _ _ [H _]. vm_compute in Hp. cbn [fst] in H. destruct Hp as [<-|[<-|[]]]; lia.
Qed.

(** ** C52: redirect resolution *)
Definition C52_full_statement : Prop := forall s L e, consistent s L -> In e L -> exists fuel c, resolve fuel s e = Ok c /\ is_redirect c = false.
(** It returns the content entry at the end of the chain of redirects, after at
    most as many steps as there are entries, unless the chain never ends. *)
Theorem C52_resolve_partial : forall s L e, consistent s L -> In e L ->
  (exists n c, Z.of_nat n < zlen L /\ chain s n e = Ok c /\ In c L /\ is_redirect c = false /\ forall fuel, (n < fuel)%nat -> resolve fuel s e = Ok c) \/
  (forall k, exists a, chain s k e = Ok a /\ In a L /\ is_redirect a = true) /\ (forall fuel, resolve fuel s e = Err Diverge).
Proof. exact resolve_dichotomy. Qed.
Theorem C52_result_partial : forall fuel s e c, resolve fuel s e = Ok c -> is_redirect c = false /\ exists n, (n < fuel)%nat /\ chain s n e = Ok c.
Proof. exact resolve_result. Qed.
(** Refutation: two redirects "Ca" and "Cb" to each other: "Ca" is retargeted to
    "Cb" after "Cb" was added as a redirect to "Ca". *)
Definition chained : zim := after (redirect 67 [98] 0) (after (redirect 67 [97] 0) (after (article [122]) blank)).
Definition retarget : went := mkWent (mkEntry MIMETYPE_ID_REDIRECT [67] [97] (Some [97]) (Redirect 1)) Ca None.
Definition cyclic : zim := after retarget chained.
Lemma chained_consistent : consistent chained (entries chained).
Proof.
  apply (add_step (after (redirect 67 [97] 0) (after (article [122]) blank)) (redirect 67 [98] 0)); [|check_addable|vm_compute; reflexivity].
  apply (add_step (after (article [122]) blank) (redirect 67 [97] 0)); [|check_addable|vm_compute; reflexivity].
  apply (add_step blank (article [122])); [exact blank_consistent|check_addable|vm_compute; reflexivity].
Qed.
Lemma cyclic_consistent : consistent cyclic (entries cyclic).
Proof.
  destruct (edit_in_place chained (entries chained) 0 (mkEntry MIMETYPE_ID_REDIRECT [67] [97] (Some [97]) (Redirect 2)) retarget 1 chained_consistent) as (s' & W & (L' & C') & _);
    [check_rewritable|split; reflexivity|].
  unfold cyclic, after. rewrite W. cbn [snd]. rewrite <- (consistent_entries s' L' C'). exact C'.
Qed.
(** A redirect to itself is refused, and nothing changes. *)
Theorem C52_no_self_redirect : forall n s u t, add_full_url_redirect n u u t s = (Err ValueError, s).
Proof. intros n s u t. unfold add_full_url_redirect, mbind, query, make_redirect. rewrite Utf8Proofs.ueqb_refl. reflexivity. Qed.
Theorem C52_refuted : ~ C52_full_statement.
Proof.
  intro H. destruct (H cyclic (entries cyclic) (w_entry retarget) cyclic_consistent) as (fuel & c & R & Hc); [vm_compute; auto|].
  assert (F1 : follow cyclic (w_entry retarget) = Ok (w_entry (redirect 67 [98] 0))) by (vm_compute; reflexivity).
  assert (F2 : follow cyclic (w_entry (redirect 67 [98] 0)) = Ok (w_entry retarget)) by (vm_compute; reflexivity).
  assert (D : forall f, resolve f cyclic (w_entry retarget) = Err Diverge /\ resolve f cyclic (w_entry (redirect 67 [98] 0)) = Err Diverge).
  { assert (U : forall f e e', is_redirect e = true -> follow cyclic e = Ok e' -> resolve (S f) cyclic e = resolve f cyclic e').
    { intros f e e' H1 H2. cbn [resolve]. rewrite H1, H2. reflexivity. }
    intro f. induction f as [|f [IH1 IH2]]; [split; reflexivity|]. split; [rewrite (U f (w_entry retarget) _ eq_refl F1)|rewrite (U f (w_entry (redirect 67 [98] 0)) _ eq_refl F2)]; assumption. }
  rewrite (proj1 (D fuel)) in R. discriminate R.
Qed.
Example C52_example : exists e, get_entry_by_full_url two Cb = Ok e /\ In e (entries two) /\ resolve 2 two e = get_entry_by_full_url two Ca.
Proof. exists (w_entry (redirect 67 [98] 0)). split; [vm_compute; reflexivity|]. split; vm_compute; auto. Qed.

(** ** C53: metadata keys *)
Theorem C53_metadata_keys : forall s L, consistent s L -> get_metadata_keys s = Ok (map e_url (filter (fun e => ueqb (e_ns e) NS_M) L)).
Proof. exact metadata_keys_ok. Qed.
Example C53_example : get_metadata_keys (after (page 77 [98]) (after (page 87 [97]) (after (page 77 [97]) two))) = Ok [[97]; [98]].
Proof. vm_compute. reflexivity. Qed.

Print Assumptions C37_added_entry_is_found.
Print Assumptions C37_added_content_is_equal.
Print Assumptions C37_other_lookups_unchanged.
Print Assumptions C37_writing_succeeds.
Print Assumptions C37_only_failure.
Print Assumptions C37_depth.
Print Assumptions C38_redirects_survive_additions.
Print Assumptions C38_no_new_redirects.
Print Assumptions C41_articles.
Print Assumptions C41_articles_sorted.
Print Assumptions C41_entry_titles.
Print Assumptions C39_in_place_partial.
Print Assumptions C39_moved_partial.
Print Assumptions C39_writing_succeeds_partial.
Print Assumptions C39_refuted.
Print Assumptions C40_additions_partial.
Print Assumptions C40_edits_in_place_partial.
Print Assumptions C40_edits_partial.
Print Assumptions C40_defect.
Print Assumptions C40_refuted.
Print Assumptions C42_removal_partial.
Print Assumptions C42_removal_succeeds_partial.
Print Assumptions C42_refuted.
Print Assumptions C42_removal_with_redirects_partial.
Print Assumptions C42_interference_refuted.
Print Assumptions C43_adding_entries.
Print Assumptions C43_editing_entries_partial.
Print Assumptions C43_removing_entries_partial.
Print Assumptions C52_resolve_partial.
Print Assumptions C52_result_partial.
Print Assumptions C52_refuted.
Print Assumptions C52_no_self_redirect.
Print Assumptions C53_metadata_keys.
