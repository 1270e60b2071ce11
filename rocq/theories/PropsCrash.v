(** C68: what has been flushed stays readable until the next flush. *)
From Coq Require Import List ZArith Bool Lia Permutation Strings.Byte.
From Coq Require Import ZifyBool ZifyNat.
From Verif Require Import Base BaseProofs Utf8 Utf8Proofs Infobyte Header HeaderSpec HeaderProofs MimeTypeList MimeTypeListSpec Entry EntrySpec Reader ReaderSpec Decompressors DecompressorsProofs Blob BlobProofs
  PointerList PointerListProofs SpaceAllocator Cluster ClusterSpec ClusterProofs ClusterWrapper ClusterWrapperSpec ClusterWrapperProofs Archive ArchiveSpec ArchiveProofs ArchiveFacts ArchiveObserve
  ArchiveCluster ArchiveClusterSpec ArchiveClusterProofs ArchiveFrame ArchiveEntryCluster CompressionStrategy CompressionStrategySpec CompressionStrategyProofs OperationBuffer OperationBufferSpec EntryObject Flush FlushSpec FlushProofs FlushTailProofs FlushOpenProofs
  FlushHistorySpec FlushHistoryProofs FlushCreateProofs ViewSpec ViewProofs ViewEditProofs ViewStepProofs ViewWaitProofs ViewHistoryProofs PropsArchiveCluster PropsCompressionStrategy PropsFlush PropsView CrashSpec.
Import ListNotations.
Open Scope Z_scope.

Section Crash.
Variable fuel : nat.
Context {D : Type}.
Variable dc : decomp D.
Variable new_decomp : ctype -> res D.
Context {K : Type}.
Variable new_comp : ctype -> res K.
Variable comp : K -> bytes -> res (bytes * K).
Variable flush : K -> res bytes.
Variable depth : nat.
Variable kd : ckind.
Variable Stream : ctype -> bytes -> bytes -> Prop.
Context {H : Type}.
Variable md5 : H.
Variable feed : H -> bytes -> H.
Variable digest : H -> bytes.
Variable truncate : bool.
Variable process_blob : entry -> M zim unit.
Variable rounds : nat.
Hypothesis CD : codec_ok dc new_decomp new_comp comp flush Stream.
Hypothesis HO : hash_ok feed digest.
Notation runs reserve := (vruns fuel dc new_decomp new_comp comp flush depth kd Stream md5 feed digest reserve truncate process_blob rounds).
Notation opens := (open_zim fuel dc new_decomp new_comp comp flush depth kd).
Notation shows := (shows fuel dc new_decomp kd).
Notation passes := (passes fuel new_comp comp flush depth).

(** *** Every file on the way keeps the bytes in use, but for the redirects *)
Lemma passes_mimes : forall z ops z' fs, passes z ops z' fs -> mextends (sa_mimes (zs_arch z)) (sa_mimes (zs_arch z')).
Proof.
  induction 1 as [z|z o z1 ops z' fs E P IH]; [apply mextends_refl|]. eapply mextends_trans; [|exact IH]. eapply perform_mimes. exact E.
Qed.
Lemma passes_keep : forall mx z ops z' fs, passes z ops z' fs -> forall lo a0 cells0 L0 done cells L Pd Pc Pp, sinv fuel Stream mx lo a0 cells0 L0 z done cells L Pd Pc Pp ->
  room lo cells0 L0 (done ++ added_by ops) -> Forall (fun x => item_ok fuel (fst x) (snd x)) (added_by ops) -> zlen (ml_types (sa_mimes (zs_arch z'))) <= 65535 ->
  forall f, In f fs -> keeps (ca_file a0) f (still (ca_alloc a0) cells0) /\ zlen (ca_file a0) <= zlen f.
Proof.
  induction 1 as [z|z o z1 ops z' fs E P IH]; intros lo a0 cells0 L0 done cells L Pd Pc Pp SI RO OK B3 f Hf.
  - destruct Hf as [<-|[]]. pose proof (si_grown _ _ _ _ _ _ _ _ _ _ _ _ _ _ SI) as G. split; [exact (gr_stay _ _ _ _ _ _ _ _ _ _ G)|exact (fr_len _ _ _ _ _ _ (gr_framed _ _ _ _ _ _ _ _ _ _ G))].
  - destruct Hf as [<-|Hf].
    { pose proof (si_grown _ _ _ _ _ _ _ _ _ _ _ _ _ _ SI) as G. split; [exact (gr_stay _ _ _ _ _ _ _ _ _ _ G)|exact (fr_len _ _ _ _ _ _ (gr_framed _ _ _ _ _ _ _ _ _ _ G))]. }
    rewrite (added_cons o ops), app_assoc in *. apply Forall_app in OK as (OK1 & OK2). pose proof (mextends_len _ _ (passes_mimes _ _ _ _ P)).
    destruct (sinv_step fuel dc new_decomp new_comp comp flush depth Stream CD mx lo _ _ _ _ _ _ _ _ _ _ o z1 SI (room_part _ _ _ _ _ RO) OK1) as (cells1 & L1 & Pd1 & Pc1 & Pp1 & SI1 & _); [lia|exact E|].
    eapply IH; eassumption.
Qed.
Lemma torn_keeps : forall f fs g (P : Z -> Prop), torn f fs g -> (forall f', In f' fs -> keeps f f' P) -> keeps f g P.
Proof.
  intros f fs g P (_ & T) F x Hx Hp. destruct (T (Z.to_nat x)) as (f' & I & ->); [unfold zlen in Hx; lia|]. apply F; assumption.
Qed.

(** *** From the flushed archive to the file that is found *)
Lemma found_again : forall reserve mx A cells L V g w sc sp, vcore fuel Stream reserve mx A cells L [] [] V -> settled A -> fa_redirects A = [] ->
  (0 < fuel)%nat -> ample fuel (fa_arch (fa_set_file g A)) (blobs_of L) -> keeps (fa_file A) g (fun x => in_use (fa_alloc A) x) ->
  exists B, opens g w sc sp = Ok B /\ same_archive (fa_set_file g A) B /\ shows B V.
Proof.
  intros reserve mx A cells L V g w sc sp VC SE ER F0 AM KE. pose proof (vc_laid _ _ _ _ _ _ _ _ _ _ VC) as LO.
  pose proof (laid_bytes _ _ _ _ _ _ LO KE) as LG. pose proof (vcore_begin _ _ _ _ _ _ _ _ _ _ VC) as HV.
  pose proof (view_bytes _ _ _ _ _ _ LO LG) as [].
  assert (HG : hcore fuel Stream reserve mx A cells L (fa_set_file g A) [] cells L [] [] []).
  { eapply (seen_again fuel Stream reserve mx A cells L A [] cells L []); try eassumption; try reflexivity.
    - exact (vc_comp _ _ _ _ _ _ _ _ _ _ VC).
    - exact (vc_plain _ _ _ _ _ _ _ _ _ _ VC).
    - split; reflexivity. }
  pose proof (vcore_after fuel Stream reserve mx A cells L V (fa_set_file g A) _ cells L [] [] [] LO (vc_main _ _ _ _ _ _ _ _ _ _ VC) (vc_table _ _ _ _ _ _ _ _ _ _ VC) HG) as VG.
  pose proof (vc_table _ _ _ _ _ _ _ _ _ _ VG) as TG. change (fa_redirects (fa_set_file g A)) with (fa_redirects A) in TG. rewrite ER in TG.
  assert (SG : shows (fa_set_file g A) V) by (exact (table_shows fuel dc new_decomp new_comp comp flush kd Stream reserve process_blob CD _ cells L _ LG AM TG)).
  destruct (open_settled fuel dc new_decomp new_comp comp flush depth kd Stream reserve md5 feed digest CD w sc sp (fa_set_file g A) cells L LG SE AM F0) as (B & E & SA & _).
  exists B. split; [exact E|]. split; [exact SA|]. exact (same_shows fuel dc new_decomp kd _ B _ SA SG).
Qed.
(** A table without links is that of an archive without redirects. *)
Lemma no_redirects : forall reserve mx A cells L V, vcore fuel Stream reserve mx A cells L [] [] V -> fa_redirects A = [] -> (forall u p t, V u = Some p -> pg_body p <> Link t) ->
  forall c, In c cells -> is_redirect (snd c) = false.
Proof.
  intros reserve mx A cells L V VC ER NL c Hc. pose proof (vc_laid _ _ _ _ _ _ _ _ _ _ VC) as LO. pose proof (laid_consistent _ _ _ _ _ LO) as CS. pose proof (vc_table _ _ _ _ _ _ _ _ _ _ VC) as T. rewrite ER in T.
  assert (G : get_entry_by_full_url (fa_zim A) (full_url (snd c)) = Ok (snd c)). { apply (lookup_iff _ _ _ _ CS). split; [apply in_map; exact Hc|reflexivity]. }
  assert (R : forall cc bb, e_kind (snd c) = Content cc bb -> is_redirect (snd c) = false).
  { intros cc bb Q. destruct (is_redirect (snd c)) eqn:ER2; [|reflexivity]. exfalso.
    pose proof (co_stored _ _ (ao_core _ _ _ _ (lo_arch _ _ _ _ _ LO))) as ST. rewrite Forall_forall in ST. destruct (ST c Hc) as (_ & _ & KC & _).
    unfold kind_consistent in KC. unfold is_redirect in ER2. rewrite Q in KC. clear - KC ER2. unfold MIMETYPE_ID_REDIRECT in *. lia. }
  destruct (listing_dec (fa_zim A) (full_url (snd c))) as [LI|LI].
  - destruct (lo_listings _ _ _ _ _ LO) as (c0 & b0 & (e0 & bl & E0 & EK0 & _) & KE). destruct LI as [LI|(LI & HN)].
    + rewrite LI in G. rewrite G in E0. injection E0 as E0. rewrite <- E0 in EK0. exact (R _ _ EK0).
    + destruct (z_etpl (fa_zim A)) as [t|] eqn:ET; [|congruence]. destruct (KE t eq_refl) as (c1 & b1 & (e1 & bl1 & E1 & EK1 & _) & _). rewrite LI in G. rewrite G in E1. injection E1 as E1. rewrite <- E1 in EK1. exact (R _ _ EK1).
  - destruct (tb_only _ _ _ _ _ _ _ T _ _ G) as [Q|Q]; [contradiction|]. destruct (V (full_url (snd c))) as [p|] eqn:EV; [|congruence].
    destruct (tb_page _ _ _ _ _ _ _ T _ _ EV LI) as [S|[[]|[]]]. destruct S as (e & G2 & _ & _ & B). rewrite G in G2. injection G2 as <-.
    destruct (pg_body p) as [m d|v] eqn:EB; [|exfalso; exact (NL _ _ _ EV EB)]. destruct B as (cc & bb & bl & K1 & _). exact (R _ _ K1).
Qed.

Lemma crash_ends : forall reserve mx n A V ops A' cells L more z fs g w sc sp, runs reserve n A V (ops ++ [VFlush]) A' -> laid_out Stream reserve A cells L ->
  pendany fuel mx (zs_comp (fa_state A)) [] -> pendany fuel mx (zs_plain (fa_state A)) [] -> no_buffer A -> (is_dirty A = false -> settled A) ->
  shows A V -> vadds ops <= n -> Forall (vlimited mx) (ops ++ [VFlush]) -> (forall u p t, vsteps V ops u = Some p -> pg_body p <> Link t) ->
  passes (fa_state A') more z fs -> Forall (fun x => item_ok fuel (fst x) (snd x)) (added_by more) -> NoDup (urls_of (added_by more)) ->
  (forall u, In u (urls_of (added_by more)) -> vsteps V ops u = None /\ ~ listing (fa_zim A') u) ->
  zlen (added_by more) <= n -> zlen (ml_types (sa_mimes (zs_arch z))) <= 65535 ->
  torn (fa_file A') fs g -> suffices fuel Stream reserve (fa_set_file g A') ->
  exists B, opens g w sc sp = Ok B /\ shows B (vsteps V ops).
Proof.
  intros reserve mx n A V ops A' cells L more z fs g w sc sp R LO P1 P2 (N1 & N2) SE SH Z LM NL P OK ND FR ZN B3 TN (S0 & SA & _).
  destruct (vruns_ends _ _ _ _ _ _ _ _ _ _ _ _ _ _ _ _ _ _ _ _ _ R) as (((_ & FA & _) & _) & _).
  assert (T : table (fa_zim A) (map snd cells) (blobs_of L) (ml_types (fa_mimes A)) [] (fa_redirects A) V).
  { rewrite N1. exact (shows_table fuel dc new_decomp new_comp comp flush kd Stream reserve md5 feed digest process_blob CD A cells L V LO (FA _ _ LO) SH). }
  destruct (view_history fuel dc new_decomp new_comp comp flush depth kd Stream reserve md5 feed digest truncate process_blob rounds CD HO mx n A V ops VFlush A' cells L R I LO) as (cells1 & L1 & VC & S1 & R1); try assumption.
  { split; assumption. }
  pose proof (vc_laid _ _ _ _ _ _ _ _ _ _ VC) as LO1. pose proof (vc_table _ _ _ _ _ _ _ _ _ _ VC) as T1. rewrite R1 in T1. pose proof (laid_consistent _ _ _ _ _ LO1) as CS1.
  pose proof (no_redirects _ _ _ _ _ _ VC R1 NL) as NR. destruct (vcore_count fuel Stream reserve md5 feed digest _ _ _ _ _ _ _ VC) as (C1 & C2).
  assert (CN : counts n A').
  { clear - R. remember (ops ++ [VFlush]) as l eqn:E. clear E. induction R; assumption. }
  destruct CN as (CN1 & CN2).
  assert (SI : sinv fuel Stream mx 0 (fa_arch A') cells1 L1 (fa_state A') [] cells1 L1 [] [] []).
  { constructor; [apply grown_refl; exact (lo_arch _ _ _ _ _ LO1)|exact (vc_comp _ _ _ _ _ _ _ _ _ _ VC)|exact (vc_plain _ _ _ _ _ _ _ _ _ _ VC)|apply Permutation_refl|constructor]. }
  assert (RO : room 0 cells1 L1 ([] ++ added_by more)).
  { cbn [app]. split; [exact ND|]. pose proof (zlen_nonneg L1). split; [|split; [lia|split; [lia|lia]]]. intros u Hu. destruct (FR u Hu) as (V0 & NLI). intros e He Q.
    assert (G : get_entry_by_full_url (fa_zim A') u = Ok e) by (apply (lookup_iff _ _ _ _ CS1); auto). destruct (tb_only _ _ _ _ _ _ _ T1 _ _ G); congruence. }
  assert (KE : keeps (fa_file A') g (fun x => in_use (fa_alloc A') x)).
  { eapply keeps_weaken; [eapply (torn_keeps _ fs g (still (ca_alloc (fa_arch A')) cells1) TN)|].
    - intros f' Hf'. exact (proj1 (passes_keep mx _ _ _ _ P 0 _ _ _ _ _ _ _ _ _ SI RO OK B3 f' Hf')).
    - intros x Hx. split; [exact Hx|]. intros c Hc Q. rewrite (NR c Hc) in Q. discriminate Q. }
  pose proof (laid_bytes _ _ _ _ _ _ LO1 KE) as LG.
  destruct (found_again reserve mx A' cells1 L1 _ g w sc sp VC S1 R1 S0 (SA _ _ LG) KE) as (B & E & _ & SB). eauto.
Qed.

(** *** C68.  An archive that shows a table without links is changed and
    flushed.  Then items are added and partly written, and the program ends.
    Whatever part of what was written since has reached the disk, the file that is
    found opens, and shows the table as it was when the archive was flushed. *)
Theorem C68_additions_partial : forall reserve n A cells L V ops A' more z fs g w sc sp,
  laid_out Stream reserve A cells L -> fresh_strategy (zs_comp (fa_state A)) -> fresh_strategy (zs_plain (fa_state A)) ->
  fa_redirects A = [] -> fa_main A = None -> (is_dirty A = false -> settled A) ->
  shows A V -> runs reserve n A V (ops ++ [VFlush]) A' -> vadds ops <= n ->
  (forall u p t, vsteps V ops u = Some p -> pg_body p <> Link t) ->
  passes (fa_state A') more z fs -> Forall (fun x => item_ok fuel (fst x) (snd x)) (added_by more) -> NoDup (urls_of (added_by more)) ->
  (forall u, In u (urls_of (added_by more)) -> vsteps V ops u = None /\ ~ listing (fa_zim A') u) ->
  zlen (added_by more) <= n -> zlen (ml_types (sa_mimes (zs_arch z))) <= 65535 ->
  torn (fa_file A') fs g -> suffices fuel Stream reserve (fa_set_file g A') ->
  exists B, opens g w sc sp = Ok B /\ shows B (vsteps V ops).
Proof.
  intros reserve n A cells L V ops A' more z fs g w sc sp LO F1 F2 N1 N2 SE SH R Z NL P OK ND FR ZN B3 TN SF.
  set (mx := Z.max (Z.max (limit_of (zs_comp (fa_state A))) (limit_of (zs_plain (fa_state A)))) (vhighest (ops ++ [VFlush]))).
  eapply (crash_ends reserve mx n A V ops A' cells L more z fs g w sc sp R LO); try assumption.
  - apply fresh_pendany; [exact F1|lia].
  - apply fresh_pendany; [exact F2|lia].
  - split; assumption.
  - eapply vlimited_more; [|apply vhighest_limits]. lia.
Qed.
(** The same for an archive that has been created. *)
Theorem C68_new_archive_partial : forall r u sc0 sp0 n A ops A' more z fs g w sc sp, 0 <= r -> zlen u = 16 -> fresh_strategy sc0 -> fresh_strategy sp0 ->
  init_new fuel new_comp comp flush depth (Some r) u sc0 sp0 = Ok A -> runs (Some r) n A empty_view (ops ++ [VFlush]) A' -> vadds ops <= n ->
  (forall u p t, vsteps empty_view ops u = Some p -> pg_body p <> Link t) ->
  passes (fa_state A') more z fs -> Forall (fun x => item_ok fuel (fst x) (snd x)) (added_by more) -> NoDup (urls_of (added_by more)) ->
  (forall u, In u (urls_of (added_by more)) -> vsteps empty_view ops u = None /\ ~ listing (fa_zim A') u) ->
  zlen (added_by more) <= n -> zlen (ml_types (sa_mimes (zs_arch z))) <= 65535 ->
  torn (fa_file A') fs g -> suffices fuel Stream (Some r) (fa_set_file g A') ->
  exists B, opens g w sc sp = Ok B /\ shows B (vsteps empty_view ops).
Proof.
  intros r u sc0 sp0 n A ops A' more z fs g w sc sp Hr HU F1 F2 IN R Z NL P OK ND FR ZN B3 TN SF. set (mx := Z.max (Z.max (limit_of sc0) (limit_of sp0)) (vhighest (ops ++ [VFlush]))).
  destruct (vruns_ends _ _ _ _ _ _ _ _ _ _ _ _ _ _ _ _ _ _ _ _ _ R) as (((F0 & _) & _) & _).
  destruct (created fuel dc new_decomp new_comp comp flush depth Stream CD mx r Hr F0 u sc0 sp0 A HU F1 F2) as (cells & L & LO & P1 & P2 & B1 & B2 & DI & EU & EA & ZL & UU); [lia|lia|exact IN|].
  pose proof (ao_entries _ _ _ _ (lo_arch _ _ _ _ _ LO)) as CS.
  assert (SH : shows A empty_view).
  { intros x NLI e G. apply (lookup_iff _ _ _ _ CS) in G as (G1 & G2). apply (in_map full_url) in G1. rewrite EU, G2 in G1. destruct G1 as [G1|[]]. apply NLI. left. congruence. }
  eapply (crash_ends (Some r) mx n A empty_view ops A' cells L more z fs g w sc sp R LO); try assumption.
  - split; assumption.
  - intro Q. congruence.
  - eapply vlimited_more; [|apply vhighest_limits]. lia.
Qed.
End Crash.

(** ** The full statement, for all tables, is false: redirects are rewritten in
    the file as soon as an item is written in front of their target, while the
    url pointer list in the file is still the old one. *)
Definition C68_full_statement : Prop :=
  forall fuel D (dc : decomp D) new_decomp K new_comp comp flush depth kd Stream H (md5 : H) feed digest truncate process_blob rounds,
  codec_ok (K:=K) dc new_decomp new_comp comp flush Stream -> hash_ok feed digest ->
  forall r u sc0 sp0 n A ops A' more z fs g w sc sp, 0 <= r -> zlen u = 16 -> fresh_strategy sc0 -> fresh_strategy sp0 ->
  init_new fuel new_comp comp flush depth (Some r) u sc0 sp0 = Ok A ->
  vruns fuel dc new_decomp new_comp comp flush depth kd Stream md5 feed digest (Some r) truncate process_blob rounds n A empty_view (ops ++ [VFlush]) A' -> vadds ops <= n ->
  passes fuel new_comp comp flush depth (fa_state A') more z fs -> Forall (fun x => item_ok fuel (fst x) (snd x)) (added_by more) -> NoDup (urls_of (added_by more)) ->
  (forall u, In u (urls_of (added_by more)) -> vsteps empty_view ops u = None /\ ~ listing (fa_zim A') u) ->
  zlen (added_by more) <= n -> zlen (ml_types (sa_mimes (zs_arch z))) <= 65535 ->
  torn (fa_file A') fs g -> suffices fuel Stream (Some r) (fa_set_file g A') ->
  exists B, open_zim fuel dc new_decomp new_comp comp flush depth kd g w sc sp = Ok B /\ shows fuel dc new_decomp kd B (vsteps empty_view ops).

Fixpoint pass_run (z : zstate) (more : list sop) : option (zstate * list bytes) :=
  match more with
  | [] => Some (z, [file_of z])
  | o :: r => match perform_sop sample_fuel plain_new_comp plain_comp plain_flush 6 z o with
              | (Ok _, z1) => match pass_run z1 r with Some (z', fs) => Some (z', file_of z :: fs) | None => None end
              | _ => None
              end
  end.
Lemma pass_run_ok : forall more z z' fs, pass_run z more = Some (z', fs) -> passes sample_fuel plain_new_comp plain_comp plain_flush 6 z more z' fs.
Proof.
  induction more as [|o r IH]; intros z z' fs E; cbn [pass_run] in E; [injection E as <- <-; constructor|].
  destruct (perform_sop _ _ _ _ _ z o) as [[[]|e] z1] eqn:EP; [|discriminate E]. destruct (pass_run z1 r) as [[z2 fs2]|] eqn:ER; [|discriminate E]. injection E as <- <-.
  econstructor; [exact EP|]. apply IH. exact ER.
Qed.
Definition crash_of (ops : list vop) (more : list sop) (r : res farchive) : option (farchive * zstate * list bytes) :=
  match r with
  | Ok A => match sample_vrun 100 sample_dom A empty_view (ops ++ [VFlush]) with
            | Some A' => match pass_run (fa_state A') more with Some (z, fs) => Some (A', z, fs) | None => None end
            | None => None
            end
  | Err _ => None
  end.
Definition more_a : list sop := [AddItem item_a [x41] false; FlushItems].
Lemma more_a_ok : Forall (fun x => item_ok sample_fuel (fst x) (snd x)) (added_by more_a) /\ NoDup (urls_of (added_by more_a)).
Proof.
  split; [constructor; [|constructor]|vm_compute; repeat constructor; cbn; intuition discriminate]. eapply larger_ok; [exact item_a_ok|unfold sample_fuel; lia].
Qed.
Lemma free_a : forall (V : view) s, V (item_url item_a) = None -> forall u, In u (urls_of (added_by more_a)) -> V u = None /\ ~ listing s u.
Proof. intros V s E u [<-|[]]. split; [exact E|]. apply free_ok. vm_compute. reflexivity. Qed.

(** *** The counterexample: a redirect at Cz to the entry at Cb is flushed; an item is added at Ca. *)
Definition linked : list vop := [VAdd item_b [x42] false; VLink [67; 122] (item_url item_b) None].
Definition leads_astray (x : option (farchive * zstate * list bytes)) : bool :=
  match x with
  | Some (A', z, fs) => (zlen (fa_file A') <=? zlen (file_of z)) && (zlen (ml_types (sa_mimes (zs_arch z))) <=? 65535) && small (fa_set_file (file_of z) A') && existsb (beqb (file_of z)) fs &&
      match sample_open (file_of z) false sample_simple sample_simple with
      | Ok B => match get_entry_by_full_url (fa_zim B) [67; 122] with
                | Ok e => match target_url (fa_zim B) e with Some v => negb (ueqb v [67; 98]) | None => true end
                | Err _ => true
                end
      | Err _ => true
      end
  | None => false
  end.
Lemma linked_astray : leads_astray (crash_of linked more_a sample_created) = true.
Proof. vm_compute. reflexivity. Qed.
Lemma linked_side : Forall side_ok (linked ++ [VFlush]) /\ incl (touches empty_view (linked ++ [VFlush])) sample_dom.
Proof.
  split; [|intros x Q; vm_compute in Q; vm_compute; tauto]. assert (LE : (200 <= sample_fuel)%nat) by (unfold sample_fuel; lia).
  repeat (constructor; [cbn [side_ok]; first [exact I|eapply larger_ok; [exact item_b_ok|exact LE]]|]). constructor.
Qed.
Lemma crash_of_parts : forall ops more r x, crash_of ops more r = Some x -> Forall side_ok (ops ++ [VFlush]) -> incl (touches empty_view (ops ++ [VFlush])) sample_dom ->
  exists A, r = Ok A /\ sample_vruns 100 A empty_view (ops ++ [VFlush]) (fst (fst x)) /\
    passes sample_fuel plain_new_comp plain_comp plain_flush 6 (fa_state (fst (fst x))) more (snd (fst x)) (snd x).
Proof.
  intros ops more [A|e] x E SO IN; [|discriminate E]. unfold crash_of in E. destruct (sample_vrun 100 sample_dom A empty_view (ops ++ [VFlush])) as [A'|] eqn:ER; [|discriminate E].
  destruct (pass_run (fa_state A') more) as [[z fs]|] eqn:EP; [|discriminate E]. injection E as <-. exists A. split; [reflexivity|]. split; [|apply pass_run_ok; exact EP].
  eapply (sample_vrun_ok 100 sample_dom); [|exact IN|exact SO|exact ER]. intros y Q. elim Q. reflexivity.
Qed.
Lemma last_torn : forall f fs g, zlen f <= zlen g -> In g fs -> torn f fs g.
Proof. intros f fs g Z0 I0. split; [exact Z0|]. intros x _. exists g. auto. Qed.
Theorem C68_refuted : ~ C68_full_statement.
Proof.
  intro F. pose proof linked_astray as LA. destruct (crash_of linked more_a sample_created) as [x|] eqn:EX; [|discriminate LA].
  destruct linked_side as (SO & IN). destruct (crash_of_parts _ _ _ _ EX SO IN) as (A & EA & R & P). clear EX. destruct x as ((A', z), fs). cbn [fst snd leads_astray] in *.
  repeat match goal with Q : _ && _ = true |- _ => apply andb_true_iff in Q as (? & ?) end. destruct sample_zops_ok as (_ & _ & _ & FS & FM). destruct more_a_ok as (O1 & O2).
  destruct (F sample_fuel _ passthrough plain_new _ plain_new_comp plain_comp plain_flush 6%nat KRemembering plain_stream _ 0 sample_feed sample_digest true (fun _ => ret tt) 3%nat plain_codec sample_hash
    50 sample_uuid sample_simple sample_mime 100 A linked A' more_a z fs (file_of z) false sample_simple sample_simple ltac:(lia) eq_refl FS FM EA R ltac:(vm_compute; discriminate) P O1 O2) as (B & EB & SH).
  - apply free_a. vm_compute. reflexivity.
  - vm_compute. discriminate.
  - lia.
  - apply last_torn; [lia|]. match goal with Q : existsb _ _ = true |- _ => apply existsb_exists in Q as (f & I1 & I2) end. apply beqb_eq in I2. subst f. exact I1.
  - apply small_suffices. assumption.
  - match goal with Q : match sample_open _ _ _ _ with _ => _ end = true |- _ => rewrite EB in Q; rename Q into LQ end.
    specialize (SH [67; 122] (free_ok _ [67; 122] eq_refl)). change (vsteps empty_view linked [67; 122]) with (Some (mkPage (shown_as [67; 98] (page_of item_b [x42])) false (Link [67; 98]))) in SH.
    destruct SH as (e & us & G & _ & _ & _ & T). cbn [pg_body] in T. rewrite G, T in LQ. discriminate LQ.
Qed.

(** *** A case of the theorem: two items are flushed, a third one is written over
    the checksum, half of which is lost in the crash. *)
Definition unlinked : list vop := [VAdd item_b [x42] false; VAdd item_c [x43] true].
Definition half (f f' : bytes) : bytes := ztake (zlen f - 8) f ++ zskip (zlen f - 8) f'.
Definition half_done (x : option (farchive * zstate * list bytes)) : bool :=
  match x with
  | Some (A', z, fs) => let g := half (fa_file A') (file_of z) in
      (8 <=? zlen (fa_file A')) && (zlen (fa_file A') <=? zlen (file_of z)) && (zlen (ml_types (sa_mimes (zs_arch z))) <=? 65535) && small (fa_set_file g A') &&
      existsb (beqb (fa_file A')) fs && existsb (beqb (file_of z)) fs && negb (beqb g (file_of z)) && negb (beqb (ztake (zlen (fa_file A')) g) (fa_file A'))
  | None => false
  end.
Lemma unlinked_half : half_done (crash_of unlinked more_a sample_created) = true.
Proof. vm_compute. reflexivity. Qed.
Lemma unlinked_side : Forall side_ok (unlinked ++ [VFlush]) /\ incl (touches empty_view (unlinked ++ [VFlush])) sample_dom.
Proof.
  split; [|intros x Q; vm_compute in Q; vm_compute; tauto]. assert (LE : (200 <= sample_fuel)%nat) by (unfold sample_fuel; lia).
  repeat (constructor; [cbn [side_ok]; first [exact I|eapply larger_ok; [first [exact item_b_ok|exact item_c_ok]|exact LE]]|]). constructor.
Qed.
Lemma nth_ztake : forall (f : bytes) n x, 0 <= n -> (x < Z.to_nat n)%nat -> nth_error (ztake n f) x = nth_error f x.
Proof. intros f n x _ Hx. unfold ztake. revert x Hx. generalize (Z.to_nat n). induction f as [|b f IH]; intros [|k] [|x] Hx; cbn; try reflexivity; try lia. apply IH. lia. Qed.
Lemma half_torn : forall f f' fs, 8 <= zlen f -> zlen f <= zlen f' -> In f fs -> In f' fs -> torn f fs (half f f').
Proof.
  intros f f' fs Z0 Z1 I1 I2. assert (LT : zlen (ztake (zlen f - 8) f) = zlen f - 8) by (rewrite ztake_len by lia; lia). split.
  - unfold half. rewrite zlen_app, LT, zskip_len by lia. lia.
  - intros x Hx. unfold half. destruct (Nat.lt_ge_cases x (Z.to_nat (zlen f - 8))) as [Hl|Hl].
    + exists f. split; [exact I1|]. rewrite nth_error_app1 by (unfold zlen in *; lia). apply nth_ztake; [lia|exact Hl].
    + exists f'. split; [exact I2|]. rewrite nth_error_app2 by (unfold zlen in *; lia). unfold zskip. rewrite nth_error_skipn. f_equal. unfold zlen in *. lia.
Qed.
Example C68_example : exists A A' z fs g B, sample_created = Ok A /\ sample_vruns 100 A empty_view (unlinked ++ [VFlush]) A' /\
  passes sample_fuel plain_new_comp plain_comp plain_flush 6 (fa_state A') more_a z fs /\ torn (fa_file A') fs g /\ g <> file_of z /\ ztake (zlen (fa_file A')) g <> fa_file A' /\
  sample_open g true sample_simple sample_simple = Ok B /\
  shows_page sample_fuel passthrough plain_new KRemembering B [67; 98] (page_of item_b [x42]) /\ shows_page sample_fuel passthrough plain_new KRemembering B (item_url item_c) (page_of item_c [x43]) /\
  forall e, get_entry_by_full_url (fa_zim B) (item_url item_a) <> Ok e.
Proof.
  pose proof unlinked_half as UH. destruct (crash_of unlinked more_a sample_created) as [x|] eqn:EX; [|discriminate UH].
  destruct unlinked_side as (SO & IN). destruct (crash_of_parts _ _ _ _ EX SO IN) as (A & EA & R & P). clear EX. destruct x as ((A', z), fs). unfold half_done in UH. cbn [fst snd] in *. cbv zeta in UH.
  set (g := half (fa_file A') (file_of z)) in *.
  repeat match goal with Q : _ && _ = true |- _ => apply andb_true_iff in Q as (? & ?) end. destruct sample_zops_ok as (_ & _ & _ & FS & FM). destruct more_a_ok as (O1 & O2).
  assert (TN : torn (fa_file A') fs g).
  { apply half_torn; [lia|lia| |].
    - match goal with Q : existsb (beqb (fa_file A')) _ = true |- _ => apply existsb_exists in Q as (f & I1 & I2) end. apply beqb_eq in I2. rewrite I2. exact I1.
    - match goal with Q : existsb (beqb (file_of z)) _ = true |- _ => apply existsb_exists in Q as (f & I1 & I2) end. apply beqb_eq in I2. rewrite I2. exact I1. }
  assert (TBL : forall u p t, vsteps empty_view unlinked u = Some p -> pg_body p <> Link t).
  { intros u p t Q. unfold unlinked, vsteps in Q. cbn [fold_left vstep] in Q. unfold vput, empty_view in Q. destruct (ueqb u (item_url item_c)); [injection Q as <-; discriminate|]. destruct (ueqb u (item_url item_b)); [injection Q as <-; discriminate|discriminate Q]. }
  destruct (C68_new_archive_partial sample_fuel passthrough plain_new plain_new_comp plain_comp plain_flush 6%nat KRemembering plain_stream 0 sample_feed sample_digest true (fun _ => ret tt) 3%nat plain_codec sample_hash
    50 sample_uuid sample_simple sample_mime 100 A unlinked A' more_a z fs g true sample_simple sample_simple ltac:(lia) eq_refl FS FM EA R ltac:(vm_compute; discriminate) TBL P O1 O2) as (B & EB & SH).
  - apply free_a. vm_compute. reflexivity.
  - vm_compute. discriminate.
  - lia.
  - exact TN.
  - apply small_suffices. assumption.
  - exists A, A', z, fs, g, B. split; [exact EA|]. split; [exact R|]. split; [exact P|]. split; [exact TN|].
    split; [intro Q; match goal with Q2 : negb (beqb g (file_of z)) = true |- _ => rewrite (proj2 (beqb_eq _ _) Q) in Q2; discriminate Q2 end|].
    split; [intro Q; match goal with Q2 : negb (beqb (ztake _ g) _) = true |- _ => rewrite (proj2 (beqb_eq _ _) Q) in Q2; discriminate Q2 end|].
    split; [exact EB|]. pose proof (SH [67; 98] (free_ok _ [67; 98] eq_refl)) as S1. pose proof (SH (item_url item_c) (free_ok _ (item_url item_c) eq_refl)) as S2. pose proof (SH (item_url item_a) (free_ok _ (item_url item_a) eq_refl)) as S3.
    change (vsteps empty_view unlinked [67; 98]) with (Some (page_of item_b [x42])) in S1. change (vsteps empty_view unlinked (item_url item_c)) with (Some (page_of item_c [x43])) in S2.
    change (vsteps empty_view unlinked (item_url item_a)) with (@None page) in S3. auto.
Qed.

Print Assumptions C68_additions_partial.
Print Assumptions C68_new_archive_partial.
Print Assumptions C68_refuted.
Print Assumptions C68_example.
