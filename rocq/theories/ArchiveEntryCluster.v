(** Writing entries leaves the clusters of the archive alone. *)
From Coq Require Import List ZArith Bool Lia Sorting.Sorted.
From Coq Require Import ZifyBool ZifyNat.
From Verif Require Import Base Entry EntrySpec EntryProofs PointerList SpaceAllocator SpaceAllocatorSpec Cluster
  Archive ArchiveSpec ArchiveProofs ArchiveMoveProofs ArchiveWriteProofs ArchiveObserve ArchiveLaws ArchiveCluster ArchiveClusterSpec ArchiveClusterProofs ArchiveFrame.
Import ListNotations.
Open Scope Z_scope.

(** An archive has only one list of entries. *)
Lemma core_unique : forall s c d, core s c -> core s d -> c = d.
Proof.
  intros s c d [] []. clear - co_locs co_stored co_locs0 co_stored0. rewrite co_locs in co_locs0. clear co_locs.
  revert d co_locs0 co_stored0. induction c as [|(p, e) c IH]; intros [|(q, e') d] E F; try discriminate E; [reflexivity|].
  cbn [map fst] in E. injection E as <- E. inversion co_stored; subst. inversion F; subst. f_equal; [|apply IH; assumption].
  f_equal. cbn [fst snd] in *. match goal with A : stored _ _ e, B : stored _ _ e' |- _ => apply stored_read in A; apply stored_read in B; congruence end.
Qed.

(** Clusters survive every change of the entries that keeps their bytes, their
    space and takes no space that they cover. *)
Lemma entries_frame : forall Stream a cells L s' cells', archive_ok Stream a cells L ->
  core s' cells' -> consistent s' (map snd cells') ->
  (forall i d, at_number L i d -> keeps (ca_file a) (z_file s') (covers d)) ->
  (forall i d x, at_number L i d -> covers d x -> in_use (z_alloc s') x) ->
  (forall c' x, In c' cells' -> occupies c' x -> (exists c, In c cells /\ occupies c x) \/ ~ in_use (ca_alloc a) x) ->
  archive_ok Stream (mkCa s' (ca_ptrs a) (ca_next a)) cells' L.
Proof.
  intros Stream a cells L s' cells' [] C' CS' K U O. constructor; cbn [ca_zim ca_ptrs ca_next]; try assumption.
  - intros i d H. unfold ca_file. cbn [ca_zim]. eapply cluster_keeps; [eapply ao_stored; exact H|]. specialize (K i d H). destruct d; exact K.
  - intros c i d x Hc Hd (Hx & Hy). destruct (O c x Hc Hx) as [(c0 & H0 & H1)|N].
    + apply (ao_apart c0 i d x H0 Hd). auto.
    + apply N. eapply ao_used; eassumption.
Qed.

(** Redirects and their space after an insertion. *)
Lemma inserted_span : forall L p u e, zlen L + 1 < 2 ^ 32 -> targets_exist L -> In e L -> entry_storable e -> span (shift_entry p 1 [u] e) = span e.
Proof.
  intros L p u e N T He S. apply shift_span; [exact S|]. intros r _ Hr. pose proof (T e r He Hr). lia.
Qed.

(** *** the bytes that no addition writes to: those in use, but for the redirects *)
Definition still (al : allocator) (cells : list (Z * entry)) (x : Z) : Prop :=
  in_use al x /\ forall c, In c cells -> is_redirect (snd c) = true -> ~ occupies c x.

Lemma add_cells : forall s cells w n s', core s cells -> consistent s (map snd cells) -> addable (map snd cells) w ->
  write_entry (S (S n)) w s = (Ok tt, s') ->
  exists cells', core s' cells' /\ consistent s' (map snd cells') /\
    (forall c' x, In c' cells' -> occupies c' x -> (exists c, In c cells /\ occupies c x) \/ ~ in_use (z_alloc s) x) /\
    (forall x, in_use (z_alloc s) x -> in_use (z_alloc s') x) /\
    keeps (z_file s) (z_file s') (fun x => in_use (z_alloc s) x /\ forall c, In c cells -> ~ occupies c x) /\
    zlen (z_file s) <= zlen (z_file s') /\
    ((forall x, still (z_alloc s) cells x -> still (z_alloc s') cells' x) /\ keeps (z_file s) (z_file s') (still (z_alloc s) cells)) /\
    exists A B p q, map snd cells = A ++ B /\ map snd cells' = map (shift_entry p 1 [full_url (w_entry w)]) A ++ bumped q (w_entry w) :: map (shift_entry p 1 [full_url (w_entry w)]) B.
Proof.
  intros s cells w n s' C CS AD W. pose proof CS as [_ Hcomp Htg Hmain Hcnt]. destruct (addable_article _ _ _ CS AD) as (a & Ha & HaC & Haf).
  assert (Ln : zlen (map snd cells) = zlen cells) by apply zlen_map. rewrite Ln in *.
  destruct (ad_enc _ _ AD) as [b Hb].
  destruct (write_new (fun w u => write_entry_rec (S n) w u true) true w s cells a) as (A & B & off & EC & [Ho1 Ho2] & Hout).
  - exists (fun w u => write_entry_rec n w u true). intro w'. reflexivity.
  - exact C.
  - exact Hcomp.
  - intros c r Hc Hr. rewrite <- Ln. apply (Htg (snd c) r); [apply in_map; exact Hc|exact Hr].
  - rewrite <- Ln. apply (ad_count _ _ AD).
  - apply (ad_storable _ _ AD).
  - apply (ad_kind _ _ AD).
  - intros c Hc. apply (ad_url _ _ AD). apply in_map. exact Hc.
  - intros r Hr. rewrite <- Ln. apply (ad_target _ _ AD r Hr).
  - apply (find_old_new s cells w b C Hb). intros c Hc. apply (ad_old _ _ AD). apply in_map. exact Hc.
  - exact Ha.
  - exact HaC.
  - cbv zeta in Hout. set (p := zlen A) in *. set (u := full_url (w_entry w)) in *. set (sh := shift_cell p 1 [u]) in *.
    destruct Hout as [(s1 & W1 & C' & _ & _ & _ & Hu & Hnew & K & Le & _ & _)|(s1 & c & Hc & _ & W1)].
    2: { exfalso. change (write_entry (S (S n)) w s = (Err AssertionError, s1)) in W1. congruence. }
    change (write_entry (S (S n)) w s = (Ok tt, s1)) in W1. rewrite W in W1. injection W1 as <-.
    exists (map sh A ++ (off, bumped p (w_entry w)) :: map sh B). split; [exact C'|].
    split.
    { destruct (add_ok s _ w n CS AD) as (LA & LB & _ & _ & _ & a' & _ & _ & [(s2 & W2 & D)|(s2 & q & _ & _ & W2)]); rewrite W in W2; [|discriminate W2].
      injection W2 as <-. destruct D as (L' & off' & C2 & _). pose proof C2 as [(cells2 & E2 & Co2) _ _ _ _]. rewrite <- E2 in C2.
      rewrite (core_unique _ _ _ C' Co2). exact C2. }
    assert (SP : forall c, In c cells -> span (snd (sh c)) = span (snd c)).
    { intros c Hc. unfold sh, shift_cell. cbn [snd]. apply (inserted_span (map snd cells)).
      - apply (ad_count _ _ AD).
      - exact Htg.
      - apply in_map. exact Hc.
      - pose proof (co_stored _ _ C) as F. rewrite Forall_forall in F. destruct (F c Hc) as (_ & G & _). exact G. }
    assert (OLD : forall c x, In c cells -> occupies (sh c) x -> occupies c x).
    { intros c x Hc H. unfold occupies in *. rewrite SP in H by exact Hc. exact H. }
    assert (BS : span (bumped p (w_entry w)) = span (w_entry w)).
    { unfold bumped. destruct (e_kind (w_entry w)) as [|r] eqn:Ek; [reflexivity|]. destruct (p <=? r); [|reflexivity].
      pose proof (ad_target _ _ AD r Ek). pose proof (ad_count _ _ AD). eapply wri_span; [apply (ad_storable _ _ AD)|exact Ek|lia]. }
    split; [|split; [|split; [|split; [exact Le|split]]]].
    + intros c' x Hc Hx. apply in_app_or in Hc as [Hc|[Hc|Hc]].
      * left. apply in_map_iff in Hc as (c & <- & Hc). exists c. assert (In c cells) by (rewrite EC; apply in_or_app; auto). auto.
      * right. subst c'. apply Hnew. unfold occupies in *. cbn [fst snd] in *. rewrite BS in Hx. exact Hx.
      * left. apply in_map_iff in Hc as (c & <- & Hc). exists c. assert (In c cells) by (rewrite EC; apply in_or_app; auto). auto.
    + intros x Hx. apply Hu. auto.
    + eapply keeps_weaken; [exact K|]. cbv beta. intros x (H1 & H2). split; [exact H1|]. intros c Hc _. apply H2. exact Hc.
    + split.
      * intros x (S1 & S2). split; [apply Hu; auto|]. intros c' Hc Hr Hx. apply in_app_or in Hc as [Hc|[Hc|Hc]].
        -- apply in_map_iff in Hc as (c & <- & Hc). assert (I : In c cells) by (rewrite EC; apply in_or_app; auto).
           apply (S2 c I); [|apply OLD; assumption]. unfold sh, shift_cell in Hr. cbn [snd] in Hr. rewrite shift_is_redirect in Hr. exact Hr.
        -- subst c'. apply (Hnew x); [|exact S1]. unfold occupies in *. cbn [fst snd] in *. rewrite BS in Hx. exact Hx.
        -- apply in_map_iff in Hc as (c & <- & Hc). assert (I : In c cells) by (rewrite EC; apply in_or_app; auto).
           apply (S2 c I); [|apply OLD; assumption]. unfold sh, shift_cell in Hr. cbn [snd] in Hr. rewrite shift_is_redirect in Hr. exact Hr.
      * eapply keeps_weaken; [exact K|]. cbv beta. intros x (H1 & H2). split; [exact H1|]. intros c Hc Hq. apply H2; [exact Hc|]. unfold touched in Hq. apply andb_prop in Hq as [Hq _].
        apply andb_prop in Hq as [Hq _]. exact Hq.
    + exists (map snd A), (map snd B), p, p. split; [rewrite EC; apply map_app|]. rewrite map_app. cbn [map snd]. rewrite !map_map. reflexivity.
Qed.

(** C43 for entries: adding an entry leaves all clusters as they are. *)
Lemma add_keeps_clusters : forall Stream a cells L w n s', archive_ok Stream a cells L -> addable (map snd cells) w ->
  write_entry (S (S n)) w (ca_zim a) = (Ok tt, s') ->
  exists cells', archive_ok Stream (mkCa s' (ca_ptrs a) (ca_next a)) cells' L /\
    framed a cells L (mkCa s' (ca_ptrs a) (ca_next a)) cells' L /\
    ((forall x, still (z_alloc (ca_zim a)) cells x -> still (z_alloc s') cells' x) /\ keeps (ca_file a) (z_file s') (still (z_alloc (ca_zim a)) cells)) /\
    exists A B p q, map snd cells = A ++ B /\ map snd cells' = map (shift_entry p 1 [full_url (w_entry w)]) A ++ bumped q (w_entry w) :: map (shift_entry p 1 [full_url (w_entry w)]) B.
Proof.
  intros Stream a cells L w n s' AO AD W. destruct (add_cells _ cells _ _ _ (ao_core _ _ _ _ AO) (ao_entries _ _ _ _ AO) AD W) as (cells' & C' & CS' & O & U & K & LE & ST & SH).
  exists cells'. split; [|split; [|split; [exact ST|exact SH]]].
  2: { constructor; cbn [ca_zim ca_ptrs]; [|eapply keeps_weaken; [exact K|]|exact LE|eapply write_tracks; exact W|apply tracks_refl].
       - intros x (S1 & S2 & S3). split; [apply U; exact S1|]. split; [|exact S3]. intros c' Hc' Hx. destruct (O c' x Hc' Hx) as [(c & Hc & Hy)|N]; [exact (S2 c Hc Hy)|exact (N S1)].
       - intros x (S1 & S2 & _). auto. } apply (entries_frame Stream a cells); try assumption.
  - intros i d Hd. eapply keeps_weaken; [exact K|]. cbv beta. intros x Hx. split; [eapply (ao_used _ _ _ _ AO); eassumption|].
    intros c Hc Hy. apply (ao_apart _ _ _ _ AO c i d x Hc Hd). auto.
  - intros i d x Hd Hx. apply U. eapply (ao_used _ _ _ _ AO); eassumption.
Qed.
