(** C65: an archive behaves like a table from urls to pages, whatever is added,
    edited, removed, flushed, closed and opened again. *)
From Coq Require Import List ZArith Bool Lia Permutation Strings.Byte.
From Coq Require Import ZifyBool ZifyNat.
From Verif Require Import Base BaseProofs Utf8 Utf8Proofs Infobyte Header HeaderSpec HeaderProofs MimeTypeList MimeTypeListSpec Entry EntrySpec Reader ReaderSpec Decompressors DecompressorsProofs Blob BlobProofs
  PointerList PointerListProofs SpaceAllocator Cluster ClusterSpec ClusterProofs ClusterWrapper ClusterWrapperSpec ClusterWrapperProofs Archive ArchiveSpec ArchiveProofs ArchiveFacts ArchiveObserve
  ArchiveCluster ArchiveClusterSpec ArchiveClusterProofs CompressionStrategy CompressionStrategySpec CompressionStrategyProofs OperationBuffer OperationBufferSpec EntryObject Flush FlushSpec FlushProofs FlushTailProofs FlushOpenProofs
  FlushHistorySpec FlushHistoryProofs FlushCreateProofs ViewSpec ViewProofs ViewEditProofs ViewStepProofs ViewWaitProofs ViewHistoryProofs PropsArchiveCluster PropsCompressionStrategy PropsFlush.
Import ListNotations.
Open Scope Z_scope.

Definition vhighest (ops : list vop) : Z :=
  fold_right (fun o m => match o with VReopen sc sp => Z.max m (Z.max (limit_of sc) (limit_of sp)) | _ => m end) 0 ops.
Lemma vlimited_more : forall mx mx' ops, mx <= mx' -> Forall (vlimited mx) ops -> Forall (vlimited mx') ops.
Proof. intros mx mx' ops LE F. eapply Forall_impl; [|exact F]. intros []; cbn [vlimited]; intuition lia. Qed.
Lemma vhighest_limits : forall ops, Forall (vlimited (vhighest ops)) ops.
Proof.
  induction ops as [|o ops IH]; [constructor|]. constructor; [unfold vhighest; destruct o; cbn [vlimited fold_right]; try exact I; lia|]. eapply vlimited_more; [|exact IH]. unfold vhighest. destruct o; cbn [fold_right]; lia.
Qed.

Section View.
Variable fuel : nat.
Context {D : Type}.
Variable dc : decomp D.
Variable new_decomp : ctype -> res D.
Context {K : Type}.
Variable new_comp : ctype -> res K.
Variable comp : K -> bytes -> res (bytes * K).
Variable flush : K -> res bytes.
Variable depth : nat.
Variable kd : ckind.
Variable Stream : ctype -> bytes -> bytes -> Prop.
Context {H : Type}.
Variable md5 : H.
Variable feed : H -> bytes -> H.
Variable digest : H -> bytes.
Variable truncate : bool.
Variable process_blob : entry -> M zim unit.
Variable rounds : nat.
Hypothesis CD : codec_ok dc new_decomp new_comp comp flush Stream.
Hypothesis HO : hash_ok feed digest.
Notation runs reserve := (vruns fuel dc new_decomp new_comp comp flush depth kd Stream md5 feed digest reserve truncate process_blob rounds).
Notation opens := (open_zim fuel dc new_decomp new_comp comp flush depth kd).
Notation shows := (shows fuel dc new_decomp kd).

Lemma view_ends : forall reserve mx n A V ops A' cells L w sc sp, runs reserve n A V (ops ++ [VFlush]) A' -> laid_out Stream reserve A cells L ->
  pendany fuel mx (zs_comp (fa_state A)) [] -> pendany fuel mx (zs_plain (fa_state A)) [] -> no_buffer A -> (is_dirty A = false -> settled A) ->
  shows A V -> vadds ops <= n -> Forall (vlimited mx) (ops ++ [VFlush]) ->
  shows A' (vsteps V ops) /\ exists B, opens (fa_file A') w sc sp = Ok B /\ same_archive A' B /\ shows B (vsteps V ops).
Proof.
  intros reserve mx n A V ops A' cells L w sc sp R LO P1 P2 NB SE SH Z LM.
  destruct (vruns_ends _ _ _ _ _ _ _ _ _ _ _ _ _ _ _ _ _ _ _ _ _ R) as (((F0 & FA & _) & _) & ((F1 & FA1 & _) & _)).
  assert (T : table (fa_zim A) (map snd cells) (blobs_of L) (ml_types (fa_mimes A)) [] (fa_redirects A) V).
  { rewrite (proj1 NB). exact (shows_table fuel dc new_decomp new_comp comp flush kd Stream reserve md5 feed digest process_blob CD A cells L V LO (FA _ _ LO) SH). }
  destruct (view_history fuel dc new_decomp new_comp comp flush depth kd Stream reserve md5 feed digest truncate process_blob rounds CD HO mx n A V ops VFlush A' cells L R I LO P1 P2 NB SE T Z LM) as (cells1 & L1 & VC & S1 & R1).
  pose proof (vc_laid _ _ _ _ _ _ _ _ _ _ VC) as LO1. pose proof (vc_table _ _ _ _ _ _ _ _ _ _ VC) as T1. rewrite R1 in T1.
  assert (SH1 : shows A' (vsteps V ops)) by (exact (table_shows fuel dc new_decomp new_comp comp flush kd Stream reserve process_blob CD A' cells1 L1 _ LO1 (FA1 _ _ LO1) T1)).
  split; [exact SH1|].
  destruct (open_settled fuel dc new_decomp new_comp comp flush depth kd Stream reserve md5 feed digest CD w sc sp A' cells1 L1 LO1 S1 (FA1 _ _ LO1) F1) as (B & E & SA & _).
  exists B. split; [exact E|]. split; [exact SA|]. exact (same_shows fuel dc new_decomp kd A' B _ SA SH1).
Qed.

(** *** C65.  An archive that shows a table shows the changed table after
    the changes and a flush; and so does the archive that is then opened from
    the file. *)
Theorem C65_archive_is_a_table : forall reserve n A cells L V ops A' w sc sp,
  laid_out Stream reserve A cells L -> fresh_strategy (zs_comp (fa_state A)) -> fresh_strategy (zs_plain (fa_state A)) ->
  fa_redirects A = [] -> fa_main A = None -> (is_dirty A = false -> settled A) ->
  shows A V -> runs reserve n A V (ops ++ [VFlush]) A' -> vadds ops <= n ->
  shows A' (vsteps V ops) /\ exists B, opens (fa_file A') w sc sp = Ok B /\ same_archive A' B /\ shows B (vsteps V ops).
Proof.
  intros reserve n A cells L V ops A' w sc sp LO F1 F2 N1 N2 SE SH R Z. set (mx := Z.max (Z.max (limit_of (zs_comp (fa_state A))) (limit_of (zs_plain (fa_state A)))) (vhighest (ops ++ [VFlush]))).
  eapply (view_ends reserve mx n A V ops A' cells L w sc sp R LO); try assumption.
  - apply fresh_pendany; [exact F1|lia].
  - apply fresh_pendany; [exact F2|lia].
  - split; assumption.
  - eapply vlimited_more; [|apply vhighest_limits]. lia.
Qed.
(** A new archive shows the empty table. *)
Theorem C65_new_archive : forall r u sc0 sp0 n A ops A' w sc sp, 0 <= r -> zlen u = 16 -> fresh_strategy sc0 -> fresh_strategy sp0 ->
  init_new fuel new_comp comp flush depth (Some r) u sc0 sp0 = Ok A -> runs (Some r) n A empty_view (ops ++ [VFlush]) A' -> vadds ops <= n ->
  shows A empty_view /\ shows A' (vsteps empty_view ops) /\ exists B, opens (fa_file A') w sc sp = Ok B /\ same_archive A' B /\ shows B (vsteps empty_view ops).
Proof.
  intros r u sc0 sp0 n A ops A' w sc sp Hr HU F1 F2 IN R Z. set (mx := Z.max (Z.max (limit_of sc0) (limit_of sp0)) (vhighest (ops ++ [VFlush]))).
  destruct (vruns_ends _ _ _ _ _ _ _ _ _ _ _ _ _ _ _ _ _ _ _ _ _ R) as (((F0 & _) & _) & _).
  destruct (created fuel dc new_decomp new_comp comp flush depth Stream CD mx r Hr F0 u sc0 sp0 A HU F1 F2) as (cells & L & LO & P1 & P2 & B1 & B2 & DI & EU & EA & ZL & UU); [lia|lia|exact IN|].
  pose proof (ao_entries _ _ _ _ (lo_arch _ _ _ _ _ LO)) as CS.
  assert (SH : shows A empty_view).
  { intros x NL e G. apply (lookup_iff _ _ _ _ CS) in G as (G1 & G2). apply (in_map full_url) in G1. rewrite EU, G2 in G1. destruct G1 as [G1|[]]. apply NL. left. congruence. }
  split; [exact SH|]. eapply (view_ends (Some r) mx n A empty_view ops A' cells L w sc sp R LO); try assumption.
  - split; assumption.
  - intro Q. congruence.
  - eapply vlimited_more; [|apply vhighest_limits]. lia.
Qed.
End View.

(** ** A concrete history: a redirect to a later redirect, two items are added and
    a redirect to one of them, which is also the main page, before they are written; the archive is flushed; one of them gets another
    url, title and mimetype; a third item is added, the archive is closed and
    opened, that item is removed, another main page is chosen, the content of the first one is set and the
    edited one is replaced. *)
Definition item_r : item := mkItem [77] [120] [110] (mem_source [x46; x47]) (Some [82]) false.
Lemma item_r_ok : item_ok 200 item_r [x46; x47].
Proof. split; [reflexivity|]. split; [apply mem_delivers; reflexivity|intro Q; discriminate Q]. Qed.
Definition sample_vops : list vop :=
  [VLink [67; 121] [67; 122] (Some [89]); VAdd item_b [x42] false; VAdd item_c [x43] true; VLink [67; 122] (item_url item_b) None; VMain [98]; VFlush;
   VEdit (item_url item_c) [SetTitle [84]; SetUrl [77; 120]; SetMimetype [116]]; VAdd item_a [x41] false; VReopen sample_mime sample_simple; VRemove (item_url item_a); VMain [121];
   VContent (item_url item_b) [x44; x45]; VAdd item_r [x46; x47] false].
Notation sample_vstep := (perform_vop sample_fuel passthrough plain_new plain_new_comp plain_comp plain_flush 6 KRemembering 0 sample_feed sample_digest (Some 50) true (fun _ => ret tt) 3).
Notation sample_vruns := (vruns sample_fuel passthrough plain_new plain_new_comp plain_comp plain_flush 6 KRemembering plain_stream 0 sample_feed sample_digest (Some 50) true (fun _ => ret tt) 3).
Definition free_b (u : ustr) : bool := negb (ueqb u URL_ARTICLE_TITLE_INDEX) && negb (ueqb u URL_ENTRY_TITLE_INDEX).
Definition none_b {X : Type} (o : option X) : bool := match o with None => true | Some _ => false end.
Definition two_b (u : ustr) : bool := match u with [c; x] => (0 <? c) && (c <? 128) && (0 <? x) && (x <? 128) | _ => false end.
Definition complete_b (A : farchive) (V : view) (dom : list ustr) : bool :=
  is_dirty A || forallb (fun x => match V x, get_entry_by_full_url (fa_zim A) x with Some _, Err _ => false | _, _ => true end) dom.
(** [vok], apart from items and strategies, for tables without pages outside of [dom]. *)
Definition no_link_b (V : view) (dom : list ustr) (u : ustr) : bool :=
  forallb (fun x => match V x with Some q => match pg_body q with Link t => negb (ueqb t u) | _ => true end | None => true end) dom.
Definition allowed_b (A : farchive) (V : view) (dom : list ustr) (o : vop) : bool :=
  match o with
  | VAdd it d _ => free_b (item_url it) &&
      (none_b (V (item_url it)) ||
       match V (item_url it) with Some p => match pg_body p with Data _ _ => true | Link _ => false end | None => false end && no_link_b V dom (item_url it) &&
       forallb (fun w => negb (ueqb (full_url (w_entry w)) (item_url it))) (queue A))
  | VLink source target ttl => none_b (V source) && free_b source && (negb (none_b (V target)) || negb (none_b ttl)) && free_b target && negb (ueqb source target) &&
      two_b source && two_b target && match ttl with Some [x] => (0 <? x) && (x <? 128) | Some _ => false | None => true end && (none_b (fa_main A) || negb (ueqb target URL_MAINPAGE_REDIRECT))
  | VEdit u l =>
      match V u with
      | Some p => match pg_body p with Data _ _ => true | Link _ => false end && free_b u &&
          forallb (fun x => match V x with Some q => match pg_body q with Link t => negb (ueqb t u) | _ => true end | None => true end) dom &&
          (let v := fst (set_fields l u p) in (ueqb v u || none_b (V v) && free_b v && match main_url (fa_zim A) with Some m => negb (ueqb m u) | None => true end) && (negb (in_C v) || in_C u)) &&
          (zlen (ml_types (fa_mimes A)) + zlen l <=? 65535)
      | None => false
      end
  | VContent u d =>
      match V u with
      | Some p => match pg_body p with Data _ _ => true | Link _ => false end && free_b u && (zlen d <? Z.of_nat sample_fuel) &&
          forallb (fun x => ueqb x u || match get_entry_by_full_url (fa_zim A) u, get_entry_by_full_url (fa_zim A) x with
                                        | Ok e, Ok e' => match e_kind e, e_kind e' with Content c b, Content c' b' => negb ((c =? c') && (b =? b')) | Content _ _, Redirect _ => true | _, _ => false end
                                        | _, _ => true end) dom
      | None => false
      end
  | VRemove u =>
      match V u with
      | Some p => free_b u && forallb (fun x => match V x with Some q => match pg_body q with Link t => negb (ueqb t u) | _ => true end | None => true end) dom && pg_article p
      | None => false
      end
  | VMain u => none_b (fa_main A) && negb (none_b (V (NS_C ++ u))) &&
      forallb (fun x => match V x with Some q => match pg_body q with Link t => negb (ueqb t URL_MAINPAGE_REDIRECT) | _ => true end | None => true end) dom &&
      match V URL_MAINPAGE_REDIRECT with
      | Some p => match get_entry_by_full_url (fa_zim A) URL_MAINPAGE_REDIRECT, pg_body p with Ok _, Link _ => true | _, _ => false end
      | None => true
      end
  | VFlush | VReopen _ _ => complete_b A V dom
  end.
Definition vok_b (A : farchive) (V : view) (dom : list ustr) (o : vop) : bool :=
  allowed_b A V dom o &&
  match o with VAdd _ _ _ | VFlush | VReopen _ _ => true | _ => forallb (fun w => match get_entry_by_full_url (fa_zim A) (full_url (w_entry w)) with Ok _ => false | Err _ => true end) (queue A) end.
Definition counts_b (n : Z) (A : farchive) : bool := (zlen (pl_ptrs (z_upl (fa_zim A))) + n + 1 <? 2 ^ 32) && (zlen (pl_ptrs (ca_ptrs (fa_arch A))) + n <? 2 ^ 32).
Fixpoint sample_vrun (n : Z) (dom : list ustr) (A : farchive) (V : view) (ops : list vop) : option farchive :=
  if few A && counts_b n A then
    match ops with
    | [] => Some A
    | o :: r => if flush_small A && vok_b A V dom o then match sample_vstep A o with (Ok _, A1) => sample_vrun n dom A1 (vstep V o) r | (Err _, _) => None end else None
    end
  else None.
Definition side_ok (o : vop) : Prop := match o with VAdd it d _ => item_ok sample_fuel it d | VReopen sc sp => fresh_strategy sc /\ fresh_strategy sp | _ => True end.
(** The urls that the table may use after an operation. *)
Definition touched (V : view) (o : vop) : list ustr :=
  match o with VAdd it _ _ => [item_url it] | VLink s _ _ => [s] | VMain _ => [URL_MAINPAGE_REDIRECT] | VEdit u l => match V u with Some p => [fst (set_fields l u p)] | None => [] end | _ => [] end.
Fixpoint touches (V : view) (ops : list vop) : list ustr := match ops with [] => [] | o :: r => touched V o ++ touches (vstep V o) r end.
Lemma free_ok : forall s u, free_b u = true -> ~ listing s u.
Proof.
  intros s u F. unfold free_b in F. apply andb_true_iff in F as (F1 & F2). intros [->|(-> & _)].
  - rewrite (proj2 (ueqb_eq _ _) eq_refl) in F1. discriminate F1.
  - rewrite (proj2 (ueqb_eq _ _) eq_refl) in F2. discriminate F2.
Qed.
Lemma none_ok : forall X (o : option X), none_b o = true -> o = None.
Proof. intros X [x|] Q; [discriminate Q|reflexivity]. Qed.
Lemma not_none : forall X (o : option X), negb (none_b o) = true -> o <> None.
Proof. intros X [x|] Q; [discriminate|discriminate Q]. Qed.
Lemma no_link_ok : forall (V : view) dom u, (forall x, V x <> None -> In x dom) ->
  forallb (fun x => match V x with Some q => match pg_body q with Link t => negb (ueqb t u) | _ => true end | None => true end) dom = true -> forall x q, V x = Some q -> pg_body q <> Link u.
Proof.
  intros V dom u HD F x q E Q. rewrite forallb_forall in F. specialize (F x (HD x ltac:(congruence))). rewrite E, Q, (proj2 (ueqb_eq u u) eq_refl) in F. discriminate F.
Qed.
Lemma ascii_ok : forall c, 0 <= c < 128 -> exists x, utf8_encode [c] = Some [x].
Proof. intros c Hc. exists (bZ c). unfold utf8_encode, enc1. destruct (Z.ltb_spec c 0); [lia|]. destruct (Z.ltb_spec c 128); [reflexivity|lia]. Qed.
Lemma two_ok : forall u, two_b u = true -> exists c r, u = c :: r /\ (exists x, utf8_encode [c] = Some [x]) /\ storable r.
Proof.
  intros [|c [|x [|]]] Q; try discriminate. unfold two_b in Q. repeat match goal with Q : _ && _ = true |- _ => apply andb_true_iff in Q as (? & ?) end. exists c, [x]. split; [reflexivity|]. split.
  - apply ascii_ok. lia.
  - split; [destruct (ascii_ok x ltac:(lia)) as (y & ->); eauto|]. intros [Q|[]]. lia.
Qed.
Lemma complete_ok : forall A V dom, (forall x, V x <> None -> In x dom) -> complete_b A V dom = true ->
  is_dirty A = true \/ (forall u, V u <> None -> ~ listing (fa_zim A) u -> exists e, get_entry_by_full_url (fa_zim A) u = Ok e).
Proof.
  intros A V dom HD Q. unfold complete_b in Q. apply orb_true_iff in Q as [Q|Q]; [auto|]. right. intros u N _. rewrite forallb_forall in Q. specialize (Q u (HD u N)).
  destruct (V u); [|congruence]. destruct (get_entry_by_full_url (fa_zim A) u) as [e|]; [eauto|discriminate Q].
Qed.
Lemma allowed_b_ok : forall A V dom o, (forall x, V x <> None -> In x dom) -> side_ok o -> allowed_b A V dom o = true -> allowed sample_fuel A V o.
Proof.
  intros A V dom o HD SO B. destruct o as [it d un|src tgt ttl|u l|u d|u|u| |sc sp]; cbn [allowed_b allowed side_ok] in *.
  - apply andb_true_iff in B as (B1 & B2). split; [exact SO|]. split; [apply free_ok; exact B1|]. apply orb_true_iff in B2 as [B2|B2]; [left; apply none_ok; exact B2|right]. apply andb_true_iff in B2 as (B2 & B3). apply andb_true_iff in B2 as (B2 & B4).
    destruct (V (item_url it)) as [p|] eqn:EU; [|discriminate B2]. destruct (pg_body p) as [m d0|t] eqn:EB; [|discriminate B2]. split; [eauto|]. split; [eapply no_link_ok; eassumption|]. intros w Hw Q. rewrite forallb_forall in B3. specialize (B3 w Hw). rewrite Q, (proj2 (ueqb_eq _ _) eq_refl) in B3. discriminate B3.
  - repeat match goal with Q : _ && _ = true |- _ => apply andb_true_iff in Q as (? & ?) end. split; [apply none_ok; assumption|]. split; [apply free_ok; assumption|].
    split; [match goal with Q : negb (none_b (V tgt)) || _ = true |- _ => apply orb_true_iff in Q as [Q|Q]; [left|right]; apply not_none; exact Q end|]. split; [apply free_ok; assumption|].
    split; [intros ->; match goal with Q : negb (ueqb _ _) = true |- _ => rewrite (proj2 (ueqb_eq _ _) eq_refl) in Q; discriminate Q end|].
    destruct (two_ok tgt ltac:(assumption)) as (c & r & -> & (x & EC) & ((b & ER) & _)). split; [discriminate|]. split; [exists ([x] ++ b); change (c :: r) with ([c] ++ r); apply utf8_encode_app; assumption|]. split; [apply two_ok; assumption|].
    split; [|match goal with Q : none_b _ || _ = true |- _ => apply orb_true_iff in Q as [Q|Q]; [left; apply none_ok; exact Q|right; intro QQ; rewrite QQ in Q; discriminate Q] end].
    intros t ->. destruct t as [|y [|]]; try discriminate. repeat match goal with Q : (_ <? _) && _ = true |- _ => apply andb_true_iff in Q as (? & ?) end. split; [destruct (ascii_ok y ltac:(lia)) as (z & ->); eauto|]. intros [Q|[]]. lia.
  - destruct (V u) as [p|] eqn:EU; [|discriminate B]. destruct (pg_body p) as [m d|t] eqn:EB; [|discriminate B]. repeat match goal with Q : _ && _ = true |- _ => apply andb_true_iff in Q as (? & ?) end. exists p, m, d.
    split; [reflexivity|]. split; [exact EB|]. split; [apply free_ok; assumption|]. split; [eapply no_link_ok; eassumption|]. cbv zeta in *.
    repeat match goal with Q : _ && _ = true |- _ => apply andb_true_iff in Q as (? & ?) end. split; [|split; [intro Q; left; match goal with Q2 : negb (in_C _) || _ = true |- _ => rewrite Q in Q2; exact Q2 end|lia]].
    match goal with Q : ueqb _ _ || _ = true |- _ => apply orb_true_iff in Q as [Q|Q]; [left; apply ueqb_eq; exact Q|right] end. repeat match goal with Q : _ && _ = true |- _ => apply andb_true_iff in Q as (? & ?) end.
    split; [apply none_ok; assumption|split; [apply free_ok; assumption|]].
    destruct (main_url (fa_zim A)) as [m1|]; [|discriminate]. intro Q. injection Q as ->. match goal with Q : negb (ueqb _ _) = true |- _ => rewrite (proj2 (ueqb_eq _ _) eq_refl) in Q; discriminate Q end.
  - destruct (V u) as [p|] eqn:EU; [|discriminate B]. destruct (pg_body p) as [m d1|t] eqn:EB; [|discriminate B]. apply andb_true_iff in B as (B & B1). repeat match goal with Q : _ && _ = true |- _ => apply andb_true_iff in Q as (? & ?) end. exists p, m, d1.
    split; [reflexivity|]. split; [exact EB|]. split; [apply free_ok; assumption|]. split; [lia|]. intros x e e' N G G' Q. rewrite forallb_forall in B1. specialize (B1 x (HD x N)). rewrite G, G', Q in B1.
    apply orb_true_iff in B1 as [B1|B1]; [apply ueqb_eq; exact B1|]. destruct (e_kind e); [|discriminate B1]. rewrite !Z.eqb_refl in B1. discriminate B1.
  - destruct (V u) as [p|] eqn:EU; [|discriminate B]. repeat match goal with Q : _ && _ = true |- _ => apply andb_true_iff in Q as (? & ?) end. exists p. split; [reflexivity|]. split; [apply free_ok; assumption|]. split; [|left; assumption].
    intros x q E Q. exfalso. eapply no_link_ok; eassumption.
  - repeat match goal with Q : _ && _ = true |- _ => apply andb_true_iff in Q as (? & ?) end. split; [apply none_ok; assumption|]. split; [apply not_none; assumption|]. split; [eapply no_link_ok; eassumption|].
    destruct (V URL_MAINPAGE_REDIRECT) as [p|]; [|left; reflexivity]. right. destruct (get_entry_by_full_url (fa_zim A) URL_MAINPAGE_REDIRECT) as [e|]; [|discriminate]. destruct (pg_body p) as [m1 d1|t] eqn:EB; [discriminate|]. split; [exists e; reflexivity|exists p, t; auto].
  - eapply complete_ok; eassumption.
  - split; [eapply complete_ok; eassumption|exact SO].
Qed.
Lemma vok_b_ok : forall A V dom o, (forall x, V x <> None -> In x dom) -> side_ok o -> vok_b A V dom o = true -> vok sample_fuel A V o.
Proof.
  intros A V dom o HD SO B. unfold vok_b in B. apply andb_true_iff in B as (B1 & B2). split; [eapply allowed_b_ok; eassumption|].
  assert (NR : forallb (fun w => match get_entry_by_full_url (fa_zim A) (full_url (w_entry w)) with Ok _ => false | Err _ => true end) (queue A) = true -> no_replacement A).
  { intros F w e Hw G. rewrite forallb_forall in F. specialize (F w Hw). rewrite G in F. discriminate F. }
  destruct o; auto.
Qed.
Lemma vput_some : forall u p V x, vput u p V x <> None -> x = u \/ V x <> None.
Proof. intros u p V x Q. unfold vput in Q. destruct (ueqb x u) eqn:E; [left; apply ueqb_eq; exact E|auto]. Qed.
Lemma touched_ok : forall V o x, vstep V o x <> None -> In x (touched V o) \/ V x <> None.
Proof.
  intros V o x Q. destruct o as [it d un|src tgt ttl|u l|u d|u|u| |sc sp]; cbn [vstep touched] in *; auto.
  - apply vput_some in Q as [->|Q]; [left; left; reflexivity|auto].
  - apply vput_some in Q as [->|Q]; [left; left; reflexivity|auto].
  - destruct (V u) as [p|]; [|auto]. destruct (set_fields l u p) as [v q]. apply vput_some in Q as [->|Q]; [left; left; reflexivity|]. right. unfold vput in Q. destruct (ueqb x u); congruence.
  - right. destruct (V u) as [p|] eqn:EU; [|exact Q]. apply vput_some in Q as [->|Q]; congruence.
  - right. unfold vput in Q. destruct (ueqb x u); congruence.
  - apply vput_some in Q as [->|Q]; [left; left; reflexivity|auto].
Qed.
Lemma sample_vrun_ok : forall n dom ops A V A', (forall x, V x <> None -> In x dom) -> incl (touches V ops) dom -> Forall side_ok ops -> sample_vrun n dom A V ops = Some A' -> sample_vruns n A V ops A'.
Proof.
  intros n dom. induction ops as [|o ops IH]; intros A V A' HD HT SO E; cbn [sample_vrun] in E; (destruct (few A && counts_b n A) eqn:FC; [|discriminate E]); apply andb_true_iff in FC as (F & C);
    (assert (CT : counts n A) by (unfold counts_b in C; apply andb_true_iff in C as (C1 & C2); split; lia)).
  - injection E as <-. constructor; [apply few_ok; exact F|exact CT].
  - destruct (flush_small A && vok_b A V dom o) eqn:FV; [|discriminate E]. apply andb_true_iff in FV as (FS & VB). destruct (sample_vstep A o) as [[[]|e] A1] eqn:ES; [|discriminate E].
    inversion SO as [|? ? S1 S2]; subst. econstructor; [apply few_ok; exact F|exact CT|apply flush_small_suffices; exact FS|exact (vok_b_ok A V dom o HD S1 VB)|exact ES|].
    apply IH; [| |exact S2|exact E].
    + intros x Q. apply touched_ok in Q as [Q|Q]; [|auto]. apply HT. cbn [touches]. apply in_or_app. auto.
    + intros x Q. apply HT. cbn [touches]. apply in_or_app. auto.
Qed.
Definition sample_dom : list ustr := [item_url item_a; item_url item_b; item_url item_c; [67; 122]; [77; 120]; [67; 121]; URL_MAINPAGE_REDIRECT].
Definition vend_of (r : res farchive) : res farchive := do A <- r ;; match sample_vrun 100 sample_dom A empty_view (sample_vops ++ [VFlush]) with Some A' => Ok A' | None => Err Diverge end.
Lemma sample_side : Forall side_ok (sample_vops ++ [VFlush]).
Proof.
  destruct sample_zops_ok as (_ & _ & _ & FS & FM). assert (LE : (200 <= sample_fuel)%nat) by (unfold sample_fuel; lia).
  repeat (constructor; [cbn [side_ok]; first [exact I|split; assumption|eapply larger_ok; [first [exact item_a_ok|exact item_b_ok|exact item_c_ok|exact item_r_ok]|exact LE]]|]). constructor.
Qed.
Lemma sample_touches : incl (touches empty_view (sample_vops ++ [VFlush])) sample_dom.
Proof. intros x Q. vm_compute in Q. vm_compute. tauto. Qed.
Lemma vend_of_ok : forall r, match vend_of r with Ok _ => true | Err _ => false end = true -> exists A A', r = Ok A /\ vend_of r = Ok A' /\ sample_vruns 100 A empty_view (sample_vops ++ [VFlush]) A'.
Proof.
  intros [A|e] E; cbn [vend_of bind] in *; [|discriminate E]. destruct (sample_vrun 100 sample_dom A empty_view (sample_vops ++ [VFlush])) as [A'|] eqn:ER; [|discriminate E].
  exists A, A'. split; [reflexivity|]. split; [reflexivity|]. eapply (sample_vrun_ok 100 sample_dom); [|exact sample_touches|exact sample_side|exact ER]. intros x Q. elim Q. reflexivity.
Qed.
Lemma sample_vend_works : match vend_of sample_created with Ok _ => true | Err _ => false end = true.
Proof. vm_compute. reflexivity. Qed.
Lemma touches_ok : forall ops V x, vsteps V ops x <> None -> In x (touches V ops) \/ V x <> None.
Proof.
  induction ops as [|o ops IH]; intros V x Q; [auto|]. apply (IH (vstep V o) x) in Q as [Q|Q]; cbn [touches].
  - left. apply in_or_app. auto.
  - apply touched_ok in Q as [Q|Q]; [left; apply in_or_app; auto|auto].
Qed.
Lemma sample_table : forall u, vsteps empty_view sample_vops u =
  if ueqb u [67; 121] then Some (mkPage [89] false (Link [67; 122]))
  else if ueqb u [77; 120] then Some (mkPage [82] false (Data [x6e] [x46; x47]))
  else if ueqb u [67; 122] then Some (mkPage [65] false (Link [67; 98]))
  else if ueqb u [67; 98] then Some (mkPage [65] false (Data [x6d] [x44; x45]))
  else if ueqb u URL_MAINPAGE_REDIRECT then Some (mkPage [89] false (Link [67; 121]))
  else None.
Proof.
  intro u. destruct (ueqb u [67; 121]) eqn:E0; [apply ueqb_eq in E0; subst; vm_compute; reflexivity|].
  destruct (ueqb u [77; 120]) eqn:E1; [apply ueqb_eq in E1; subst; vm_compute; reflexivity|]. destruct (ueqb u [67; 122]) eqn:E2; [apply ueqb_eq in E2; subst; vm_compute; reflexivity|].
  destruct (ueqb u [67; 98]) eqn:E3; [apply ueqb_eq in E3; subst; vm_compute; reflexivity|]. destruct (ueqb u URL_MAINPAGE_REDIRECT) eqn:E6; [apply ueqb_eq in E6; subst; vm_compute; reflexivity|]. destruct (ueqb u (item_url item_a)) eqn:E4; [apply ueqb_eq in E4; subst; vm_compute; reflexivity|].
  destruct (ueqb u (item_url item_c)) eqn:E5; [apply ueqb_eq in E5; subst; vm_compute; reflexivity|].
  destruct (vsteps empty_view sample_vops u) as [p|] eqn:EV; [|reflexivity]. exfalso. destruct (touches_ok sample_vops empty_view u ltac:(congruence)) as [Q|Q]; [|apply Q; reflexivity].
  assert (HT : touches empty_view sample_vops = [[67; 121]; [67; 98]; item_url item_c; [67; 122]; URL_MAINPAGE_REDIRECT; [77; 120]; item_url item_a; URL_MAINPAGE_REDIRECT; [77; 120]]) by (vm_compute; reflexivity). rewrite HT in Q.
  destruct Q as [<-|[<-|[<-|[<-|[<-|[<-|[<-|[<-|[<-|[]]]]]]]]]]; rewrite (proj2 (ueqb_eq _ _) eq_refl) in *; discriminate.
Qed.
(** The theorem applies to it; what is then found in the file. *)
Example C65_example : exists A', vend_of sample_created = Ok A' /\
  exists B, sample_open (fa_file A') false sample_simple sample_simple = Ok B /\
    shows_page sample_fuel passthrough plain_new KRemembering B [67; 121] (mkPage [89] false (Link [67; 122])) /\
    shows_page sample_fuel passthrough plain_new KRemembering B [77; 120] (mkPage [82] false (Data [x6e] [x46; x47])) /\
    shows_page sample_fuel passthrough plain_new KRemembering B [67; 122] (mkPage [65] false (Link [67; 98])) /\
    shows_page sample_fuel passthrough plain_new KRemembering B [67; 98] (mkPage [65] false (Data [x6d] [x44; x45])) /\
    shows_page sample_fuel passthrough plain_new KRemembering B URL_MAINPAGE_REDIRECT (mkPage [89] false (Link [67; 121])) /\
    (forall e, get_entry_by_full_url (fa_zim B) (item_url item_a) <> Ok e) /\ (forall e, get_entry_by_full_url (fa_zim B) (item_url item_c) <> Ok e).
Proof.
  destruct (vend_of_ok sample_created sample_vend_works) as (A & A' & E1 & E2 & R). exists A'. split; [exact E2|]. destruct sample_zops_ok as (_ & _ & _ & FS & FM).
  destruct (C65_new_archive sample_fuel passthrough plain_new plain_new_comp plain_comp plain_flush 6 KRemembering plain_stream 0 sample_feed sample_digest true (fun _ => ret tt) 3 plain_codec sample_hash
    50 sample_uuid sample_simple sample_mime 100 A sample_vops A' false sample_simple sample_simple ltac:(lia) eq_refl FS FM E1 R ltac:(vm_compute; discriminate)) as (_ & _ & B & E & _ & SH).
  exists B. split; [exact E|]. assert (S : forall u, free_b u = true -> match vsteps empty_view sample_vops u with Some p => shows_page sample_fuel passthrough plain_new KRemembering B u p | None => forall e, get_entry_by_full_url (fa_zim B) u <> Ok e end).
  { intros u F. exact (SH u (free_ok _ _ F)). }
  pose proof (S [67; 121] eq_refl) as S0. pose proof (S [77; 120] eq_refl) as S1. pose proof (S [67; 122] eq_refl) as S2. pose proof (S [67; 98] eq_refl) as S3. pose proof (S (item_url item_a) eq_refl) as S4. pose proof (S (item_url item_c) eq_refl) as S5. pose proof (S URL_MAINPAGE_REDIRECT eq_refl) as S6.
  rewrite sample_table in S0, S1, S2, S3, S4, S5, S6. auto 9.
Qed.

Print Assumptions C65_archive_is_a_table.
Print Assumptions C65_new_archive.
Print Assumptions C65_example.
