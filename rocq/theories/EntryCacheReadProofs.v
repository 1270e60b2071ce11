(** Look-ups through any of the caches, as long as no object was changed. *)
From Coq Require Import List ZArith Bool Lia ZifyBool ZifyNat.
From Verif Require Import Base Utf8 Entry PointerList SpaceAllocator Cluster Archive Cache EntryCache EntryCacheProofs EntryCacheClass EntryCacheSpec.
Import ListNotations.
Open Scope Z_scope.

Section ReadOnly.
Variables writable autoflush : bool.
Variable depth : nat.
Notation cw := (cstate ecache).
Notation write := (rewrite writable autoflush depth).

Definition unchanged (s : zim) (objs : list cobj) (kv : Z * nat) : Prop :=
  exists o, nth_error objs (snd kv) = Some o /\ co_dirty o = false /\ get_entry_at s (fst kv) = Ok (co_now o).
Definition clean_cache (w : cw) : Prop := holds (unchanged (cs_zim _ w) (cs_objs _ w)) (cs_cache _ w).
(** Objects are only added. *)
Definition grown (w w' : cw) : Prop := forall r o, nth_error (cs_objs _ w) r = Some o -> nth_error (cs_objs _ w') r = Some o.
Definition is_now (o : cobj) (e : entry) : Prop := co_now o = e.
Notation Refers := (refers ecache is_now).
Notation Reads := (reads ecache clean_cache grown).

Lemma grown_refl : forall w, grown w w.
Proof. intros w r o H. exact H. Qed.
Lemma grown_trans : forall a b c, grown a b -> grown b c -> grown a c.
Proof. intros a b c H1 H2 r o H. auto. Qed.
Lemma grown_refers : forall e r w w', grown w w' -> Refers e r w -> Refers e r w'.
Proof. intros e r w w' G (o & H & A). exists o. split; [apply G; exact H|exact A]. Qed.

Lemma nothing_leaves : forall s objs c evs, evs_hold (unchanged s objs) evs ->
  leave_all ecache writable autoflush write evs (mkC _ s c objs) = (Ok tt, mkC _ s c objs).
Proof.
  intros s objs c evs H. induction H as [|v evs (o & Ho & D & _) _ IH]; [reflexivity|]. cbn [leave_all]. unfold mbind at 1, on_leave.
  destruct (writable && autoflush); [|exact IH]. unfold mbind, obj. cbn [cs_objs snd] in *. rewrite Ho, D. exact IH.
Qed.

Lemma ro_get_ok : forall location allow,
  Reads (any _) (fun s => get_entry_at s location) (cget_entry_at ecache estep writable autoflush write location allow) Refers.
Proof.
  intros p allow [s c objs] HI _. unfold clean_cache in HI. cbn [cs_zim cs_objs cs_cache] in HI.
  unfold cget_entry_at. destruct (p <? 0) eqn:Ep.
  { cbn. split; [reflexivity|]. split; [exact HI|]. split; [intros ? ? X; exact X|]. unfold get_entry_at. rewrite Ep. reflexivity. }
  unfold mbind at 1, cache_call at 1. cbn [cs_cache]. rewrite has_step. unfold mbind at 1. cbn [leave_all ret with_cache cs_zim cs_objs pure].
  destruct (ehas c p) eqn:Eh.
  - unfold mbind at 1, cache_call at 1. cbn [cs_cache with_cache].
    destruct (get_step _ c p HI Eh) as (c' & evs & v & E & H' & Qv & EV & _). rewrite E. unfold mbind at 1. cbn [with_cache cs_zim cs_objs].
    change (with_cache ecache c' (with_cache ecache c (mkC _ s c objs))) with (mkC ecache s c' objs). rewrite (nothing_leaves s objs c' evs EV). cbn. split; [reflexivity|]. split; [exact H'|]. split; [intros ? ? X; exact X|].
    destruct Qv as (o & Ho & D & G). cbn [fst snd] in *. rewrite G. exists o. split; [exact Ho|reflexivity].
  - unfold mbind at 1, on_archive, query, with_cache, with_zim, with_objs. cbn [cs_zim cs_cache cs_objs]. destruct (entry_at (z_file s) p) as [e|x] eqn:Ee.
    + unfold mbind at 1, new_obj, with_objs. cbn [cs_objs cs_zim cs_cache]. unfold mbind at 1, cache_call, with_cache. cbn [cs_objs cs_zim cs_cache].
      assert (G : get_entry_at s p = Ok e) by (unfold get_entry_at; rewrite Ep; exact Ee).
      assert (W : forall kv, unchanged s objs kv -> unchanged s (objs ++ [obj_new e]) kv).
      { intros kv (o & Ho & D & X). exists o. split; [rewrite nth_error_app1; [exact Ho|apply nth_error_Some; congruence]|split; assumption]. }
      assert (N : nth_error (objs ++ [obj_new e]) (length objs) = Some (obj_new e)) by (rewrite nth_error_app2, Nat.sub_diag by lia; reflexivity).
      destruct (push_step (unchanged s (objs ++ [obj_new e])) c p (length objs) allow) as (c' & evs & b & E & H' & EV & _).
      { eapply holds_weaken; [exact W|exact HI]. }
      { exists (obj_new e). split; [exact N|]. split; [reflexivity|exact G]. }
      rewrite E. unfold mbind at 1. cbn [with_cache cs_zim cs_objs]. match goal with |- context [leave_all _ _ _ _ evs ?w] => change w with (mkC ecache s c' (objs ++ [obj_new e])) end. rewrite (nothing_leaves _ _ c' evs EV). cbn.
      split; [reflexivity|]. split; [eapply holds_weaken; [|exact H']; intros kv [X _]; exact X|]. split.
      * intros r o Ho. cbn. rewrite nth_error_app1; [exact Ho|apply nth_error_Some; cbn in Ho; congruence].
      * rewrite G. exists (obj_new e). split; [exact N|reflexivity].
    + cbn. split; [reflexivity|]. split; [exact HI|]. split; [intros ? ? X; exact X|]. unfold get_entry_at. rewrite Ep, Ee. reflexivity.
Qed.

Definition Fine (a b : seen) (w : cw) : Prop := a = b.

Lemma see_reads : forall q m, Reads (any _) q m Refers -> Reads (any _) (fun s => ok_map SEntry (q s)) (see m) Fine.
Proof.
  intros q m H. apply (reads_ext ecache clean_cache grown (any _) (fun s => do e <- q s ;; Ok (SEntry e))); [reflexivity|].
  unfold see. eapply (reads_bind ecache clean_cache grown grown_trans (any _) q m Refers (fun e _ => Ok (SEntry e))); [intros ? ? _ _; exact Logic.I|exact H|].
  intros e r w HI [(o & Ho & <-) _]. unfold mbind, entry_of, mbind, obj. rewrite Ho. cbn. split; [reflexivity|]. split; [exact HI|]. split; [apply grown_refl|reflexivity].
Qed.
Lemma seen_reads : forall {A} (f : A -> seen) q (m : M cw A), Reads (any _) q m (same ecache) -> Reads (any _) (fun s => ok_map f (q s)) (let* a := m in ret (f a)) Fine.
Proof.
  intros A f q m H. apply (reads_ext ecache clean_cache grown (any _) (fun s => do e <- q s ;; Ok (f e))); [reflexivity|].
  eapply (reads_step ecache clean_cache grown grown_trans (any _) q m (fun e _ => Ok (f e))); [intros ? ? _ _; exact Logic.I|exact H|].
  intro a. apply reads_ret; [apply grown_refl|]. reflexivity.
Qed.
Lemma see_all_ok : forall w es rs, refer_all ecache is_now es rs w -> see_all rs w = (Ok es, w).
Proof.
  intros w es rs H. induction H as [|e r es rs (o & Ho & <-) _ IH]; [reflexivity|]. cbn [see_all]. unfold mbind at 1, entry_of, mbind at 1, obj. rewrite Ho. cbn.
  unfold mbind. rewrite IH. reflexivity.
Qed.
Lemma all_reads : forall q m, Reads (any _) q m (refer_all ecache is_now) ->
  Reads (any _) (fun s => ok_map SEntries (q s)) (let* rs := m in let* es := see_all rs in ret (SEntries es)) Fine.
Proof.
  intros q m H. apply (reads_ext ecache clean_cache grown (any _) (fun s => do e <- q s ;; Ok (SEntries e))); [reflexivity|].
  eapply (reads_bind ecache clean_cache grown grown_trans (any _) q m _ (fun e _ => Ok (SEntries e))); [intros ? ? _ _; exact Logic.I|exact H|].
  intros es rs w HI [RA _]. unfold mbind. rewrite (see_all_ok w es rs RA). cbn. split; [reflexivity|]. split; [exact HI|]. split; [apply grown_refl|reflexivity].
Qed.

Lemma any_st : stable ecache grown (any _).
Proof. intros ? ? _ _. exact Logic.I. Qed.
Lemma url_now : forall o e, is_now o e -> full_url (co_now o) = full_url e.
Proof. intros o e <-. reflexivity. Qed.

Lemma clook_reads : forall l, Reads (any _) (fun s => look s l) (clook writable autoflush depth l) Fine.
Proof.
  assert (GO : forall location allow, True -> Reads (any _) (fun s => get_entry_at s location) (cget_entry_at ecache estep writable autoflush write location allow) Refers) by (intros; apply ro_get_ok).
  destruct l as [u|i|p| |u|u|a b|a b|fuel u|]; unfold look, clook.
  - apply see_reads. exact (reads_by_full_url ecache estep writable autoflush write clean_cache grown grown_refl grown_trans is_now (any _) any_st (fun _ => True) Logic.I GO url_now Logic.I u).
  - apply see_reads. exact (reads_by_index ecache estep writable autoflush write clean_cache grown grown_refl grown_trans is_now (any _) any_st (fun _ => True) GO i true Logic.I).
  - apply see_reads. apply GO. exact Logic.I.
  - apply see_reads. exact (reads_mainpage ecache estep writable autoflush write clean_cache grown grown_refl grown_trans is_now (any _) any_st (fun _ => True) GO Logic.I).
  - apply seen_reads. exact (reads_has_entry ecache estep writable autoflush write clean_cache grown grown_refl grown_trans is_now (any _) any_st (fun _ => True) Logic.I GO url_now u).
  - apply seen_reads. exact (reads_is_article ecache estep writable autoflush write clean_cache grown grown_refl grown_trans is_now (any _) any_st (fun _ => True) Logic.I GO url_now u).
  - apply all_reads. exact (reads_iter ecache estep writable autoflush write clean_cache grown grown_refl grown_trans is_now grown_refers (any _) any_st (fun _ => True) GO Logic.I a b).
  - apply all_reads. exact (reads_articles ecache estep writable autoflush write clean_cache grown grown_refl grown_trans is_now grown_refers (any _) any_st (fun _ => True) GO Logic.I a b).
  - apply see_reads.
    eapply (reads_bind ecache clean_cache grown grown_trans (any _) (fun s => get_entry_by_full_url s u) _ Refers (fun e s => resolve fuel s e)); [exact any_st| |].
    + exact (reads_by_full_url ecache estep writable autoflush write clean_cache grown grown_refl grown_trans is_now (any _) any_st (fun _ => True) Logic.I GO url_now Logic.I u).
    + intros e r. exact (reads_resolve ecache estep writable autoflush write clean_cache grown grown_refl grown_trans is_now grown_refers (any _) any_st (fun _ => True) GO Logic.I (fun o e H => H) fuel e r).
  - apply seen_reads. exact (reads_metadata ecache estep writable autoflush write clean_cache grown grown_refl grown_trans is_now (any _) any_st (fun _ => True) Logic.I GO url_now Logic.I (fun o e H => H)).
Qed.

Lemma session_same : forall ls w, clean_cache w -> session writable autoflush depth ls w = map (look (cs_zim _ w)) ls.
Proof.
  induction ls as [|l ls IH]; intros w HI; [reflexivity|]. cbn [session map]. pose proof (clook_reads l w HI Logic.I) as H.
  destruct (clook writable autoflush depth l w) as [r w']. destruct H as (Z1 & I1 & _ & M1). rewrite (IH w' I1), Z1. f_equal.
  destruct (look (cs_zim _ w) l) as [a|x], r as [b|y]; try contradiction; unfold Fine in M1; congruence.
Qed.
Lemma opened_clean : forall cl s, sizes_positive cl -> clean_cache (opened cl s).
Proof. intros cl s H. apply new_holds. exact H. Qed.
End ReadOnly.
