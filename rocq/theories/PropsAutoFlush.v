(** C66 and C67: changes to clusters that nobody flushes by hand. *)
From Coq Require Import List ZArith Lia Bool Strings.Byte.
From Verif Require Import Base Dict Cache CacheSpec Cluster ClusterWrapperSpec PointerList AutoFlush AutoFlushSpec AutoFlushProofs.
Import ListNotations.
Open Scope Z_scope.

(** ** C66: what was set is read, and flushing the archive saves it *)
(** With a cluster cache of this size, any history of changes, reads, additions
    and flushes on an archive that was opened raises nothing and reads what was
    set last; after a flush, the archive opened afresh shows the changes. *)
Definition C66_full_statement (size : Z) : Prop :=
  forall place depth s X ops, place_ok place -> size < Z.of_nat depth -> just_opened s X -> all_valid X ops ->
  exists s', perform_all size place depth (ops ++ [UFlush]) s = (map (fun a => Ok a) (uanswers X (ops ++ [UFlush])), s') /\
    shows size place depth s' (usteps X ops).

Definition after_all (used : list Z) (b : list bytes) : Z := 1 + fold_right Z.max 0 used.
Lemma after_all_ok : place_ok after_all.
Proof.
  intros used b. unfold after_all. assert (0 <= fold_right Z.max 0 used /\ forall x, In x used -> x <= fold_right Z.max 0 used) as (A & B).
  { induction used as [|a l (IH1 & IH2)]; cbn [fold_right]; [split; [lia|intros x []]|]. split; [lia|]. intros x [<-|H]; [lia|]. specialize (IH2 x H). lia. }
  split; [lia|]. intro H. specialize (B _ H). lia.
Qed.

(** Three clusters, one blob each. *)
Definition three_blobs : list (list bytes) := [[[x00]]; [[x01]]; [[x02]]].
Definition three : state :=
  mkState [(10, [[x00]]); (20, [[x01]]); (30, [[x02]])] (mkPlist [10; 20; 30] false true 24) [10; 20; 30] 3 [] [].
Lemma three_opened : just_opened three three_blobs.
Proof.
  constructor.
  - reflexivity.
  - reflexivity.
  - cbn. repeat constructor; cbn; intuition lia.
  - repeat constructor; lia.
  - intros i p H. unfold znth in *. destruct (i <? 0); [discriminate H|]. destruct (Z.to_nat i) as [|[|[|n]]]; cbn in H; try (injection H as <-; reflexivity). destruct n; discriminate H.
Qed.

(** The default cache holds two clusters.  Setting the content of three entries
    in three clusters loses the third change: the object that is to be changed has
    left the cache before it is changed.  Nothing is raised; reading it gives the
    old content, and so does the saved archive. *)
Definition three_changes : list uop := [UContent 0 0 [x0a]; UContent 1 0 [x0b]; UContent 2 0 [x0c]].
Theorem C66_lost_update : all_valid three_blobs three_changes /\
  exists s', perform_all 2 after_all 10 (three_changes ++ [URead 2 0; UFlush]) three = ([Ok None; Ok None; Ok None; Ok (Some [x02]); Ok None], s') /\
    fst (read_content 2 after_all 10 2 0 (opened s')) = Ok [x02] /\ znth (usteps three_blobs three_changes) 2 = Some [[x0c]].
Proof.
  split; [vm_compute; intuition discriminate|]. eexists. split; [vm_compute; reflexivity|]. split; vm_compute; reflexivity.
Qed.
(** Adding an item instead: [KeyError], and every later flush fails, too. *)
Theorem C66_key_error :
  fst (perform_all 2 after_all 10 [UContent 0 0 [x0a]; UContent 1 0 [x0b]; UAdd [[x0d]]; UFlush] three) = [Ok None; Ok None; Err KeyError; Err KeyError].
Proof. vm_compute. reflexivity. Qed.
Theorem C66_refuted : ~ C66_full_statement 2.
Proof.
  intro H. destruct (H after_all 10%nat three three_blobs three_changes after_all_ok ltac:(lia) three_opened) as (s' & E & (_ & S)).
  - vm_compute; intuition discriminate.
  - specialize (S 2 0). vm_compute in E. injection E as <-. assert (Q : @Ok bytes [x02] = Ok [x0c]) by (apply S; vm_compute; intuition discriminate). discriminate Q.
Qed.

(** It holds as long as there are at most as many clusters with such changes at
    a time as the cache holds, and fewer when an item is added. *)
Theorem C66_with_room_partial : forall size place depth s X ops, 0 < size -> place_ok place -> size < Z.of_nat depth ->
  just_opened s X -> all_valid X ops -> all_roomy size [] ops ->
  exists s', perform_all size place depth (ops ++ [UFlush]) s = (map (fun a => Ok a) (uanswers X (ops ++ [UFlush])), s') /\
    shows size place depth s' (usteps X ops).
Proof.
  intros size place depth s X ops SZ PL DS JO V R. pose proof (opened_inv size SZ depth _ _ JO) as I.
  destruct (uops_ok size place PL SZ depth DS ops s X [] false I ltac:(discriminate) V R) as (s1 & E1 & I1 & _).
  destruct (flush_ok size place PL SZ depth DS s1 _ _ I1) as (s2 & E2 & I2 & C2). exists s2. split.
  - assert (PA : forall ops s0 r, perform_all size place depth (ops ++ r) s0 = let '(x, s1) := perform_all size place depth ops s0 in let '(y, s2) := perform_all size place depth r s1 in (x ++ y, s2)).
    { clear. induction ops as [|o ops IH]; intros s0 r; cbn [app perform_all].
      - destruct (perform_all size place depth r s0). reflexivity.
      - destruct (perform_uop size place depth o s0) as [x s1]. rewrite IH. destruct (perform_all size place depth ops s1) as [y s2]. destruct (perform_all size place depth r s2). reflexivity. }
    assert (UA : forall ops X r, uanswers X (ops ++ r) = uanswers X ops ++ uanswers (usteps X ops) r).
    { clear. induction ops as [|o ops IH]; intros X r; [reflexivity|]. cbn [app uanswers]. rewrite IH. reflexivity. }
    rewrite PA, E1. cbn [perform_all perform_uop]. unfold mbind, ret. rewrite E2, UA, map_app. reflexivity.
  - apply opened_shows; try assumption. eapply (complete_opened size depth); eassumption.
Qed.
(** In particular if every changed cluster is flushed by hand, for every size of
    the cache. *)
Definition by_hand (o : uop) : Prop := match o with UContent _ _ _ => False | _ => True end.
Theorem C66_flushed_by_hand_partial : forall size place depth s X ops, 0 < size -> place_ok place -> size < Z.of_nat depth ->
  just_opened s X -> all_valid X ops -> Forall by_hand ops ->
  exists s', perform_all size place depth (ops ++ [UFlush]) s = (map (fun a => Ok a) (uanswers X (ops ++ [UFlush])), s') /\
    shows size place depth s' (usteps X ops).
Proof.
  intros size place depth s X ops SZ PL DS JO V R. apply C66_with_room_partial; try assumption. clear V JO. induction R as [|o ops H R IH]; [exact I|].
  destruct o as [i j d|i j d|i j|l|]; [destruct H| | | |]; cbn [all_roomy leaves_room pending_after]; split; try exact IH; try exact I; cbn; try (right; lia); lia.
Qed.
(** Two changed clusters, a third one flushed by hand, an addition, in an archive
    with the default cache. *)
Definition roomy_history : list uop :=
  [UContentFlush 2 0 [x0c]; UContent 0 0 [x0a]; URead 1 0; URead 2 0; UAdd [[x0d]; [x0e]]; UContent 1 1 [x0b]; URead 0 0; UContent 0 0 [x0f]].
Example C66_meets : all_valid three_blobs roomy_history /\ all_roomy 2 [] roomy_history /\
  usteps three_blobs roomy_history = [[[x0f]]; [[x01]; [x0b]]; [[x0c]]; [[x0d]; [x0e]]].
Proof. vm_compute. intuition (try discriminate; auto). Qed.
Example C66_not_roomy : ~ all_roomy 2 [] three_changes.
Proof. vm_compute. intuition discriminate. Qed.

(** ** C67: closing the archive saves what was changed *)
Definition C67_full_statement (size : Z) : Prop :=
  forall place depth s X ops, place_ok place -> size < Z.of_nat depth -> just_opened s X -> all_valid X ops -> all_roomy size [] ops ->
  exists s', close_archive size place depth (snd (perform_all size place depth ops s)) = (Ok tt, s') /\ shows size place depth s' (usteps X ops).
(** One change, then [close]. *)
Theorem C67_refuted : ~ C67_full_statement 2.
Proof.
  intro H. destruct (H after_all 10%nat three three_blobs [UContent 0 0 [x0a]] after_all_ok ltac:(lia) three_opened) as (s' & E & (_ & S)).
  - vm_compute; intuition discriminate.
  - vm_compute. intuition.
  - specialize (S 0 0). vm_compute in E. injection E as <-. assert (Q : @Ok bytes [x00] = Ok [x0a]) by (apply S; vm_compute; intuition discriminate). discriminate Q.
Qed.
(** It does if, since the last flush of the archive, a cluster was added or
    flushed by hand, or if no change is left that was not flushed by hand. *)
Theorem C67_noticed_partial : forall size place depth s X ops, 0 < size -> place_ok place -> size < Z.of_nat depth ->
  just_opened s X -> all_valid X ops -> all_roomy size [] ops -> noticed ops = true \/ left_pending ops = [] ->
  exists s', close_archive size place depth (snd (perform_all size place depth ops s)) = (Ok tt, s') /\ shows size place depth s' (usteps X ops).
Proof.
  intros size place depth s X ops SZ PL DS JO V R N. pose proof (opened_inv size SZ depth _ _ JO) as I.
  destruct (uops_ok size place PL SZ depth DS ops s X [] false I ltac:(discriminate) V R) as (s1 & E1 & I1 & D1). rewrite E1. cbn [snd].
  destruct (close_ok size place PL SZ depth DS s1 _ _ I1) as (s2 & E2 & C2 & P' & I2).
  - destruct N as [N|N]; [left; exact (D1 N)|right; exact N].
  - exists s2. split; [exact E2|]. apply opened_shows; try assumption. eapply (complete_opened size depth); eassumption.
Qed.
Example C67_meets : noticed roomy_history = true /\ left_pending roomy_history <> [] /\ noticed [UContent 0 0 [x0a]] = false /\
  left_pending [UContent 0 0 [x0a]; UFlush; URead 1 0] = [] /\ noticed [UContent 0 0 [x0a]; UFlush; URead 1 0] = false.
Proof. vm_compute. intuition discriminate. Qed.

Print Assumptions C66_lost_update.
Print Assumptions C66_key_error.
Print Assumptions C66_refuted.
Print Assumptions C66_with_room_partial.
Print Assumptions C66_flushed_by_hand_partial.
Print Assumptions C67_refuted.
Print Assumptions C67_noticed_partial.
