(** Property C98: processors that change the entries that are read. *)
From Coq Require Import List ZArith Bool Lia.
From Coq Require Import ZifyBool ZifyNat.
From Verif Require Import Base BaseProofs Utf8 Entry PointerList PointerListProofs Cluster Archive ArchiveSpec ArchiveProofs ArchiveLaws ArchiveFacts PropsArchive PropsIteration EntryHooks.
Import ListNotations.
Open Scope Z_scope.

Section Spec.
Context {P : Type}.
Variable procs : list (proc P).

(** The processors are asked one after another, each of them with the entry that
    the one before returned and with the memory that it left; [e'] is what the
    last one returns. *)
Inductive passed (location : Z) : list (proc P) -> entry -> P -> entry -> Prop :=
| passed_all : forall e p, passed location [] e p e
| passed_one : forall x r e p e1 p1 e', after_get x location e p = (e1, p1) -> passed location r e1 p1 e' -> passed location (x :: r) e p e'.
(** [e'] is what the processors made, at some time, of the entry [e] that is
    stored at some location. *)
Definition made_from (s : zim) (e e' : entry) : Prop :=
  exists location p, get_entry_at s location = Ok e /\ passed location procs e p e'.
(** The same result, up to what the processors make of the entry. *)
Definition processed (s : zim) (r r' : res entry) : Prop :=
  match r, r' with
  | Ok e, Ok e' => made_from s e e'
  | Err x, Err y => x = y
  | _, _ => False
  end.
Definition all_processed (s : zim) (r r' : res (list entry)) : Prop :=
  match r, r' with
  | Ok l, Ok l' => Forall2 (made_from s) l l'
  | Err x, Err y => x = y
  | _, _ => False
  end.
(** The processors may change titles, mimetypes, contents, but not urls. *)
Definition keeps_urls : Prop := forall x, In x procs -> forall location e p, full_url (fst (after_get x location e p)) = full_url e.
(** They do not change where redirects lead, nor what is a redirect. *)
Definition keeps_targets : Prop := forall x, In x procs -> forall location e p,
  e_kind (fst (after_get x location e p)) = e_kind e /\ e_mimetype (fst (after_get x location e p)) = e_mimetype e.
End Spec.

Section Proofs.
Context {P : Type}.
Variable procs : list (proc P).
Notation processed := (processed procs).
Notation all_processed := (all_processed procs).
Notation made_from := (made_from procs).

Lemma passed_iff : forall location l e (p : P) e', passed location l e p e' <-> e' = fst (pass_on l location e p).
Proof.
  intros location. induction l as [|x l IH]; intros e p e'; cbn [pass_on].
  - split; [intro H; inversion H; reflexivity|intros ->; constructor].
  - destruct (after_get x location e p) as [e1 p1] eqn:E. split.
    + intro H. inversion H as [|x0 r0 e0 p0 e2 p2 e3 E2 H2]; subst. rewrite E in E2. injection E2 as <- <-. apply IH. exact H2.
    + intro H. econstructor; [exact E|]. apply IH. exact H.
Qed.
Lemma at_processed : forall s l p, processed s (get_entry_at s l) (fst (hget_entry_at procs s l p)).
Proof.
  intros s l p. destruct (get_entry_at s l) as [e|x] eqn:E; unfold get_entry_at in E; unfold hget_entry_at.
  - destruct (l <? 0) eqn:N; [discriminate E|]. rewrite E. destruct (pass_on procs l e (ask_before procs l p)) as [e' p'] eqn:EP. cbn [fst PropsEntryHooks.processed].
    exists l, (ask_before procs l p). split; [|apply passed_iff; rewrite EP; reflexivity]. unfold get_entry_at. rewrite N. exact E.
  - destruct (l <? 0); [injection E as <-; reflexivity|]. rewrite E. reflexivity.
Qed.
Lemma by_index_processed : forall s i p, processed s (get_entry_by_url_index s i) (fst (hget_entry_by_url_index procs s i p)).
Proof.
  intros s i p. unfold get_entry_by_url_index, hget_entry_by_url_index. destruct (i <? 0); [reflexivity|].
  destruct (get_by_index (pl_ptrs (z_upl s)) i) as [l|x]; [apply at_processed|]. destruct x; reflexivity.
Qed.

(** ** Look-ups by number, iteration, main page: for all processors *)
Theorem C98_by_index : forall s i p, processed s (get_entry_by_url_index s i) (fst (hget_entry_by_url_index procs s i p)).
Proof. exact by_index_processed. Qed.
Theorem C98_mainpage : forall s p, processed s (get_mainpage_entry s) (fst (hget_mainpage_entry procs s p)).
Proof.
  intros s p. unfold get_mainpage_entry, hget_mainpage_entry. destruct (z_main s) as [i|]; [|reflexivity].
  unfold mbind, plain. destruct (get_by_index (pl_ptrs (z_upl s)) i) as [l|x]; [apply at_processed|reflexivity].
Qed.
Lemma range_processed : forall s (g : Z -> res entry) (h : Z -> M P entry), (forall i p, processed s (g i) (fst (h i p))) ->
  forall c i p, all_processed s (iter_range g i c) (fst (hiter_range h i c p)).
Proof.
  intros s g h H. induction c as [|c IH]; intros i p; [constructor|]. cbn [iter_range hiter_range]. unfold mbind. specialize (H i p).
  destruct (h i p) as [[e'|x] p1]; destruct (g i) as [e|y]; cbn [fst PropsEntryHooks.processed bind] in *; try contradiction; [|exact H].
  specialize (IH (i + 1) p1). destruct (hiter_range h (i + 1) c p1) as [[l'|x] p2]; destruct (iter_range g (i + 1) c) as [l|y]; cbn [fst PropsEntryHooks.all_processed bind] in *; try contradiction; [|exact IH].
  constructor; assumption.
Qed.
Lemma bounds_processed : forall s n (g : Z -> res entry) (h : Z -> M P entry), (forall i p, processed s (g i) (fst (h i p))) ->
  forall a b p, all_processed s (iter_bounds n n g a b) (fst (hiter_bounds n h a b p)).
Proof. intros s n g h H a b p. unfold iter_bounds, hiter_bounds. cbv zeta. repeat (destruct (_ <? _); [reflexivity|]). apply range_processed. exact H. Qed.
Theorem C98_iteration : forall s a b p, all_processed s (iter_entries s a b) (fst (hiter_entries procs s a b p)) /\
  all_processed s (iter_articles s a b) (fst (hiter_articles procs s a b p)).
Proof.
  intros s a b p. split; apply bounds_processed; intros i q; unfold mbind, plain.
  - destruct (get_by_index (pl_ptrs (z_upl s)) i) as [l|x]; [apply at_processed|reflexivity].
  - destruct (get_by_index (pl_ptrs (z_atpl s)) i) as [l|x]; [apply by_index_processed|reflexivity].
Qed.

(** ** Look-ups by url: for processors that keep urls *)
Lemma kept_url : forall l, keeps_urls l -> forall location e (p : P), full_url (fst (pass_on l location e p)) = full_url e.
Proof.
  induction l as [|x l IH]; intros KU location e p; [reflexivity|]. cbn [pass_on]. pose proof (KU x (or_introl eq_refl) location e p) as E.
  destruct (after_get x location e p) as [e1 p1]. cbn [fst] in E. rewrite IH; [exact E|]. intros y Hy. apply KU. right. exact Hy.
Qed.
Lemma key_same : keeps_urls procs -> forall s l p, fst (hurl_key procs s l p) = url_key s l.
Proof.
  intros KU s l p. unfold hurl_key, url_key, mbind, plain. unfold hget_entry_at, get_entry_at. destruct (l <? 0); [reflexivity|].
  destruct (entry_at (z_file s) l) as [e|x]; [|reflexivity]. pose proof (kept_url procs KU l e (ask_before procs l p)) as E.
  destruct (pass_on procs l e (ask_before procs l p)) as [e1 p1]. cbn [fst bind] in *. rewrite E. reflexivity.
Qed.
Lemma search_same : forall (hk : Z -> M P bytes) k, (forall i p, fst (hk i p) = k i) ->
  forall n e a b p, fst (hbsearch_loop n hk e a b p) = bsearch_loop n k e a b.
Proof.
  intros hk k H. induction n as [|n IH]; intros e a b p; cbn [hbsearch_loop bsearch_loop]; destruct (a <? b); try reflexivity.
  unfold mbind. rewrite <- (H _ p). destruct (hk ((a + b) / 2) p) as [[x|x] p1]; cbn [fst bind]; [|reflexivity]. destruct (bltb x e); apply IH.
Qed.
Lemma keyat_same : forall (hk : Z -> M P bytes) k l, (forall i p, fst (hk i p) = k i) -> forall i p, fst (hkeyat hk l i p) = keyat k l i.
Proof. intros hk k l H i p. unfold hkeyat, keyat, mbind, plain. destruct (get_by_index l i); [apply H|reflexivity]. Qed.
Lemma get_same : forall (hk : Z -> M P bytes) k l, (forall i p, fst (hk i p) = k i) -> forall key p, fst (hget hk l key p) = get k l key.
Proof.
  intros hk k l H key p. unfold hget, get, get_gen, hget_index, get_index_gen, binarysearch. unfold mbind at 1 2. unfold plain at 1.
  assert (S : forall q, fst ((if zlen l =? 0 then ret 0 else hbsearch_loop (Z.to_nat (zlen l)) (hkeyat hk l) key 0 (zlen l)) q) =
    (if zlen l =? 0 then Ok 0 else bsearch_loop (Z.to_nat (zlen l)) (fun i => do p <- get_by_index l i;; k p) key 0 (zlen l))).
  { intro q. destruct (zlen l =? 0); [reflexivity|]. apply search_same. intros i r. apply keyat_same. exact H. }
  specialize (S p). destruct ((if zlen l =? 0 then ret 0 else _) p) as [[i|x] p1]; cbn [fst] in S; rewrite <- S; cbn [bind]; [|reflexivity].
  destruct (i =? zlen l); [reflexivity|]. unfold mbind. pose proof (keyat_same hk k l H i p1) as KS. unfold keyat in KS.
  destruct (get_by_index l i) as [q|x] eqn:EG; cbn [bind] in *.
  - destruct (hkeyat hk l i p1) as [[b|x] p2]; cbn [fst] in KS; rewrite <- KS; cbn [bind fst]; [|reflexivity].
    destruct (beqb b key); cbn [ret raise bind fst]; [rewrite EG|]; reflexivity.
  - destruct (hkeyat hk l i p1) as [[b|y] p2]; cbn [fst] in KS; [discriminate KS|]. injection KS as ->. reflexivity.
Qed.
Lemma pointer_same : keeps_urls procs -> forall s u p, fst ((let* k := plain (encode u) in hget (hurl_key procs s) (pl_ptrs (z_upl s)) k) p) = url_pointer s u.
Proof.
  intros KU s u p. unfold url_pointer, mbind, plain. destruct (encode u) as [k|x]; [|reflexivity]. cbn [bind]. apply get_same. intros i q. apply key_same. exact KU.
Qed.
(** The entry with this url is found, and is what the processors made of it;
    other urls are not found, as without processors. *)
Theorem C98_by_url_partial : keeps_urls procs -> forall s u p,
  processed s (get_entry_by_full_url s u) (fst (hget_entry_by_full_url procs s u p)) /\
  fst (hhas_entry_for_full_url procs s u p) = has_entry_for_full_url s u.
Proof.
  intros KU s u p. pose proof (pointer_same KU s u p) as E. unfold hget_entry_by_full_url, hhas_entry_for_full_url, get_entry_by_full_url.
  destruct ((let* k := plain (encode u) in hget (hurl_key procs s) (pl_ptrs (z_upl s)) k) p) as [r p1]. cbn [fst] in E. split.
  - rewrite <- E. destruct r as [l|x]; [apply at_processed|destruct x; reflexivity].
  - unfold has_entry_for_full_url, has, has_gen. unfold url_pointer in E. unfold encode in *. destruct (utf8_encode u) as [k|]; cbn [bind] in *; [|subst r; reflexivity].
    unfold get in E. rewrite <- E. destruct r as [l|x]; [reflexivity|destruct x; reflexivity].
Qed.

(** ** Redirects: for processors that keep where they lead *)
Lemma kept_target : forall l, keeps_targets l -> forall location e (p : P),
  e_kind (fst (pass_on l location e p)) = e_kind e /\ e_mimetype (fst (pass_on l location e p)) = e_mimetype e.
Proof.
  induction l as [|x l IH]; intros KT location e p; [split; reflexivity|]. cbn [pass_on]. pose proof (KT x (or_introl eq_refl) location e p) as E.
  destruct (after_get x location e p) as [e1 p1]. cbn [fst] in E. destruct (IH (fun y Hy => KT y (or_intror Hy)) location e1 p1) as (A & B).
  rewrite A, B. exact E.
Qed.
(** [e'] is the entry [e] as it was read. *)
Theorem C98_resolve_partial : keeps_targets procs -> forall s e e', made_from s e e' -> forall n p,
  processed s (resolve n s e) (fst (hresolve procs n s e' p)).
Proof.
  intros KT s e e' MF n. revert e e' MF. induction n as [|n IH]; intros e e' MF p; [reflexivity|]. cbn [resolve hresolve].
  pose proof MF as (l & q & _ & EM). apply passed_iff in EM. destruct (kept_target procs KT l e q) as (K1 & K2). rewrite <- EM in K1, K2.
  unfold is_redirect. rewrite K2. destruct (e_mimetype e =? MIMETYPE_ID_REDIRECT); [|exact MF].
  unfold follow, hfollow. rewrite K1. destruct (e_kind e) as [c b|i]; [reflexivity|]. unfold mbind.
  pose proof (by_index_processed s i p) as BI. destruct (hget_entry_by_url_index procs s i p) as [[e1'|x] p1];
    destruct (get_entry_by_url_index s i) as [e1|y]; cbn [fst PropsEntryHooks.processed bind] in *; try contradiction; [|exact BI].
  apply IH. exact BI.
Qed.

(** ** In a consistent archive *)
Lemma processed_urls : keeps_urls procs -> forall s l l', Forall2 (made_from s) l l' -> map full_url l' = map full_url l.
Proof.
  intros KU s l l' H. induction H as [|e e' l l' M H IH]; [reflexivity|]. cbn [map]. rewrite IH. f_equal. destruct M as (loc & p & _ & M). apply passed_iff in M as ->. apply kept_url. exact KU.
Qed.
(** Iteration shows one entry for every url of the archive, in their order, and
    look-ups find exactly these urls, whatever the processors did in between. *)
Theorem C98_pages_partial : keeps_urls procs -> forall s L p, consistent s L -> exists es,
  fst (hiter_entries procs s None None p) = Ok es /\ Forall2 (made_from s) L es /\ map full_url es = map full_url L /\
  forall u b q, utf8_encode u = Some b ->
    (In u (map full_url es) -> exists e', fst (hget_entry_by_full_url procs s u q) = Ok e' /\ full_url e' = u /\ exists e, In e L /\ made_from s e e') /\
    (~ In u (map full_url es) -> fst (hget_entry_by_full_url procs s u q) = Err EntryNotFound).
Proof.
  intros KU s L p C. pose proof (proj1 (C98_iteration s None None p)) as IT. rewrite (entries_ok s L C) in IT.
  destruct (fst (hiter_entries procs s None None p)) as [es|x]; cbn [PropsEntryHooks.all_processed] in IT; [|contradiction].
  exists es. split; [reflexivity|]. split; [exact IT|]. pose proof (processed_urls KU s L es IT) as EU. split; [exact EU|].
  rewrite EU. intros u b q EN. pose proof (proj1 (C98_by_url_partial KU s u q)) as BU. split.
  - intro I. apply in_map_iff in I as (e & Eu & He). rewrite (proj2 (lookup_iff s L u e C) (conj He Eu)) in BU.
    destruct (fst (hget_entry_by_full_url procs s u q)) as [e'|x]; cbn [PropsEntryHooks.processed] in BU; [|contradiction]. exists e'. split; [reflexivity|].
    split; [|eauto]. destruct BU as (loc & r & _ & BU). apply passed_iff in BU as ->. rewrite kept_url by exact KU. exact Eu.
  - intro N. rewrite (proj2 (missing_iff s L u b C EN)) in BU.
    + destruct (fst (hget_entry_by_full_url procs s u q)) as [e'|x]; cbn [PropsEntryHooks.processed] in BU; [contradiction|congruence].
    + intros e He Q. apply N. rewrite <- Q. apply in_map. exact He.
Qed.
End Proofs.

(** ** A processor that counts and changes titles *)
Definition loud : proc Z := mkProc (fun _ n => n + 1) (fun _ e n => (mkEntry (e_mimetype e) (e_ns e) (e_url e) (Some (33 :: title e)) (e_kind e), n + 100)).
Example C98_example : keeps_urls [loud] /\ keeps_targets [loud] /\ consistent two (entries two) /\
  map full_url (entries two) = [Ca; Cb] /\
  match hget_entry_by_full_url [loud] two Cb 0 with (Ok e, n) => (full_url e, title e, n) | _ => ([], [], -1) end = (Cb, [33; 98], 404).
Proof.
  split; [intros x [<-|[]]; reflexivity|]. split; [intros x [<-|[]]; split; reflexivity|]. split; [exact two_consistent|]. split; vm_compute; reflexivity.
Qed.

(** ** Refutation of C98 *)
(** For all processors. *)
Definition C98_full_statement : Prop := forall P (procs : list (proc P)) s L, consistent s L -> forall u p,
  processed procs s (get_entry_by_full_url s u) (fst (hget_entry_by_full_url procs s u p)).
(** A processor that shows the entries under other urls: "Ca" is there, but is not
    found. *)
Definition renaming : proc unit := mkProc (fun _ p => p) (fun _ e p => (mkEntry (e_mimetype e) (e_ns e) (e_url e ++ [33]) (e_title e) (e_kind e), p)).
Lemma C98_lost : fst (hget_entry_by_full_url [renaming] two Ca tt) = Err EntryNotFound.
Proof. vm_compute. reflexivity. Qed.
Theorem C98_refuted : ~ C98_full_statement.
Proof.
  intro H. specialize (H unit [renaming] two _ two_consistent Ca tt). rewrite C98_lost in H.
  destruct (get_entry_by_full_url two Ca) as [e|x] eqn:E; [exact H|]. vm_compute in E. discriminate E.
Qed.

Print Assumptions C98_by_index.
Print Assumptions C98_mainpage.
Print Assumptions C98_iteration.
Print Assumptions C98_by_url_partial.
Print Assumptions C98_resolve_partial.
Print Assumptions C98_pages_partial.
Print Assumptions C98_refuted.
