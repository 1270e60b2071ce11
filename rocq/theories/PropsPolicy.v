(** Property C104: a policy that was accepted can be used. *)
From Coq Require Import List ZArith Bool Lia.
From Coq Require Import ZifyBool.
From Coq Require Import String.
From Verif Require Import Base Policy.
Import ListNotations.
Open Scope Z_scope.
Open Scope string_scope.

(** ** Specification *)
(** A class that is given has to be of the right kind. *)
Definition right_kind (o : option cls) (b : base) : Prop := forall c, o = Some c -> In b (c_bases c).
(** What the documentation asks of the arguments, as far as it is about the constructor. *)
Definition acceptable (a : args) : Prop :=
  right_kind (a_cluster a) BCluster /\ right_kind (a_simple a) BSimple /\ right_kind (a_ordered a) BOrdered /\
  right_kind (a_title a) BTitle /\ right_kind (a_ecache a) BCache /\ right_kind (a_ccache a) BCache /\
  right_kind (a_strategy a) BStrategy /\ right_kind (a_ustrategy a) BStrategy /\
  (forall n, a_reserve a = Some n -> n >= 3) /\
  In (a_counter a) ["load"; "ignore"; "reinit"; "load_or_reinit"] /\
  (forall kw, a_strategy_kw a = Some kw -> ~ In "zim" (map fst kw)).
(** The same, and what is said of the other strategy. *)
Definition documented (a : args) : Prop :=
  acceptable a /\ (forall kw, a_ustrategy_kw a = Some kw -> ~ In "zim" (map fst kw)).
(** An argument is kept; in place of one that is missing there is something else. *)
Definition kept {A} (given : option A) (got : A) (missing : A) : Prop :=
  match given with Some x => got = x | None => got = missing end.
(** The keywords are parameters of the class and with the one that the archive gives all
    are there that have no default. *)
Definition suits (c : cls) (own : string) (kw : kwargs) : Prop :=
  In own (c_params c) /\ (forall k, In k (map fst kw) -> In k (c_params c)) /\
  (forall k, In k (c_required c) -> k = own \/ In k (map fst kw)).
Definition all_suit (p : policy) : Prop :=
  suits (p_ccache p) "on_leave" (p_ccache_kw p) /\ suits (p_ecache p) "on_leave" (p_ecache_kw p) /\
  suits (p_strategy p) "zim" (p_strategy_kw p) /\ suits (p_ustrategy p) "zim" (p_ustrategy_kw p).

(** ** Proofs *)
Lemma base_eqb_eq : forall a b, base_eqb a b = true <-> a = b.
Proof. intros [] []; split; intro H; first [reflexivity | discriminate H]. Qed.
Lemma issubclass_in : forall c b, issubclass c b = true <-> In b (c_bases c).
Proof.
  intros c b. unfold issubclass. rewrite existsb_exists. split.
  - intros [x [I E]]. apply base_eqb_eq in E. subst. exact I.
  - intro I. exists b. split; [exact I|]. apply base_eqb_eq. reflexivity.
Qed.
Lemma in_strings : forall k l, existsb (String.eqb k) l = true <-> In k l.
Proof.
  intros k l. rewrite existsb_exists. split.
  - intros [x [I E]]. apply String.eqb_eq in E. subst. exact I.
  - intro I. exists k. split; [exact I|]. apply String.eqb_refl.
Qed.
Lemma has_key_in : forall k d, has_key k d = true <-> In k (map fst d).
Proof.
  intros k d. unfold has_key. rewrite existsb_exists, in_map_iff. split.
  - intros [x [I E]]. apply String.eqb_eq in E. exists x. split; [symmetry; exact E|exact I].
  - intros [x [E I]]. exists x. split; [exact I|]. rewrite E. apply String.eqb_refl.
Qed.
Lemma kind_default : forall o d b, In b (c_bases d) -> (issubclass (default d o) b = true <-> right_kind o b).
Proof.
  intros [c|] d b I; rewrite issubclass_in; unfold right_kind; cbn [default]; split; intro H.
  - intros c' E. injection E as <-. exact H.
  - apply H. reflexivity.
  - intros c' E. discriminate E.
  - exact I.
Qed.
Lemma kw_default : forall k (o : option kwargs) d, ~ In k (map fst d) ->
  (negb (has_key k (default d o)) = true <-> forall kw, o = Some kw -> ~ In k (map fst kw)).
Proof.
  intros k o d N. rewrite negb_true_iff, <- not_true_iff_false, has_key_in. destruct o as [kw|]; cbn [default]; split; intro H.
  - intros kw' E. injection E as <-. exact H.
  - apply H. reflexivity.
  - intros kw' E. discriminate E.
  - exact N.
Qed.
Lemma check_bind : forall A (b : bool) (k : unit -> res A) x, bind (check b) k = Ok x <-> b = true /\ k tt = Ok x.
Proof. intros A [] k x; cbn; split; intro H; [split; [reflexivity|exact H]|apply H|discriminate H|destruct H as [H _]; discriminate H]. Qed.
Lemma check_bind_err : forall A (b : bool) (k : unit -> res A) x, bind (check b) k = Err x -> x = AssertionError \/ k tt = Err x.
Proof. intros A [] k x H; cbn in H; [right; exact H|left; injection H as <-; reflexivity]. Qed.

Definition built (a : args) : policy :=
  mkpolicy (a_options a) (default OffsetRememberingCluster (a_cluster a)) (default SimplePointerList (a_simple a))
    (default OrderedPointerList (a_ordered a)) (default TitlePointerList (a_title a))
    (default NoOpCache (a_ecache a)) (default [] (a_ecache_kw a))
    (default LastAccessCache (a_ccache a)) (default (match a_ccache a with None => [("max_size", 2)] | Some _ => [] end) (a_ccache_kw a))
    (default SimpleCompressionStrategy (a_strategy a)) (default (match a_strategy a with None => [("compression_type", 5)] | Some _ => [] end) (a_strategy_kw a))
    (default SimpleCompressionStrategy (a_ustrategy a)) (default (match a_ustrategy a with None => [("compression_type", 1)] | Some _ => [] end) (a_ustrategy_kw a))
    (a_autoflush a) (a_truncate a) (a_reserve a) (a_counter a).
Lemma init_ok : forall a p, policy_init a = Ok p <-> acceptable a /\ p = built a.
Proof.
  intros a p. unfold policy_init. cbv zeta. rewrite !check_bind.
  rewrite !kind_default by (cbn; tauto).
  rewrite !kw_default by (destruct (a_strategy a); cbn; intuition discriminate).
  rewrite in_strings. unfold acceptable.
  assert (R : (match a_reserve a with None => true | Some n => (2 <? n)%Z end) = true <-> (forall n, a_reserve a = Some n -> n >= 3)).
  { destruct (a_reserve a) as [n|]; split; intro H.
    - intros m E. injection E as <-. lia.
    - specialize (H n eq_refl). lia.
    - intros m E. discriminate E.
    - reflexivity. }
  rewrite R. unfold built, ZSTD, NONE. split.
  - intros H. repeat match goal with H : _ /\ _ |- _ => destruct H end.
    match goal with H : Ok _ = Ok _ |- _ => injection H as <- end. repeat split; assumption.
  - intros [H ->]. tauto.
Qed.
Lemma init_err : forall a x, policy_init a = Err x -> x = AssertionError.
Proof.
  intros a x H. unfold policy_init in H. cbv zeta in H.
  repeat (apply check_bind_err in H; destruct H as [H|H]; [exact H|]). discriminate H.
Qed.
Lemma call_ok : forall c own kw, suits c own kw -> ~ In own (map fst kw) -> call c own kw = Ok tt.
Proof.
  intros c own kw (S1 & S2 & S3) N. unfold call.
  destruct (has_key own kw) eqn:K; [apply has_key_in in K; contradiction|].
  replace (forallb (fun k => existsb (String.eqb k) (c_params c)) (own :: map fst kw)) with true.
  2:{ symmetry. apply forallb_forall. intros k I. apply in_strings. destruct I as [<-|I]; [exact S1|apply S2; exact I]. }
  replace (forallb (fun k => existsb (String.eqb k) (own :: map fst kw)) (c_required c)) with true; [reflexivity|].
  symmetry. apply forallb_forall. intros k I. apply in_strings. destruct (S3 k I) as [->|J]; [left; reflexivity|right; exact J].
Qed.
Lemma call_inv : forall c own kw, call c own kw = Ok tt -> suits c own kw /\ ~ In own (map fst kw).
Proof.
  intros c own kw H. unfold call in H.
  destruct (has_key own kw) eqn:K; [discriminate H|].
  destruct (forallb (fun k => existsb (String.eqb k) (c_params c)) (own :: map fst kw)) eqn:P; [|discriminate H].
  destruct (forallb (fun k => existsb (String.eqb k) (own :: map fst kw)) (c_required c)) eqn:R; [|discriminate H].
  rewrite forallb_forall in P. rewrite forallb_forall in R. split.
  - split; [apply in_strings, P; left; reflexivity|]. split.
    + intros k I. apply in_strings, P. right. exact I.
    + intros k I. apply R, in_strings in I. destruct I as [<-|I]; [left; reflexivity|right; exact I].
  - intro I. apply has_key_in in I. rewrite K in I. discriminate I.
Qed.
Lemma call_err : forall c own kw x, call c own kw = Err x -> x = TypeError.
Proof.
  intros c own kw x H. unfold call in H. destruct (has_key own kw); [injection H as <-; reflexivity|].
  destruct (negb _) in H; [injection H as <-; reflexivity|]. destruct (negb _) in H; [injection H as <-; reflexivity|discriminate H].
Qed.

(** ** C104 *)
(** The constructor returns exactly if the arguments are acceptable; otherwise it raises AssertionError. *)
Theorem C104_accepted : forall a,
  ((exists p, policy_init a = Ok p) <-> acceptable a) /\ (~ acceptable a -> policy_init a = Err AssertionError).
Proof.
  intro a. split.
  - split; [intros [p H]; apply init_ok in H; apply H|intro H; exists (built a); apply init_ok; split; [exact H|reflexivity]].
  - intro N. destruct (policy_init a) as [p|x] eqn:E; [apply init_ok in E; destruct E; contradiction|].
    apply init_err in E. subst. reflexivity.
Qed.
(** Whatever is given is kept.  The keywords that are used by default go with the class that is used by default. *)
Theorem C104_kept : forall a p, policy_init a = Ok p ->
  p_options p = a_options a /\ p_autoflush p = a_autoflush a /\ p_truncate p = a_truncate a /\
  p_reserve p = a_reserve a /\ p_counter p = a_counter a /\
  kept (a_cluster a) (p_cluster p) OffsetRememberingCluster /\ kept (a_simple a) (p_simple p) SimplePointerList /\
  kept (a_ordered a) (p_ordered p) OrderedPointerList /\ kept (a_title a) (p_title p) TitlePointerList /\
  kept (a_ecache a) (p_ecache p) NoOpCache /\ kept (a_ecache_kw a) (p_ecache_kw p) [] /\
  kept (a_ccache a) (p_ccache p) LastAccessCache /\ kept (a_strategy a) (p_strategy p) SimpleCompressionStrategy /\
  kept (a_ustrategy a) (p_ustrategy p) SimpleCompressionStrategy /\
  (a_ccache a = None -> kept (a_ccache_kw a) (p_ccache_kw p) [("max_size", 2)]) /\
  (a_ccache a <> None -> kept (a_ccache_kw a) (p_ccache_kw p) []) /\
  (a_strategy a = None -> kept (a_strategy_kw a) (p_strategy_kw p) [("compression_type", 5)]) /\
  (a_strategy a <> None -> kept (a_strategy_kw a) (p_strategy_kw p) []) /\
  (a_ustrategy a = None -> kept (a_ustrategy_kw a) (p_ustrategy_kw p) [("compression_type", 1)]) /\
  (a_ustrategy a <> None -> kept (a_ustrategy_kw a) (p_ustrategy_kw p) []).
Proof.
  intros a p H. apply init_ok in H. destruct H as [_ ->]. destruct a as [o c1 c2 c3 c4 e ek c ck s sk u uk f t r n]. cbn.
  repeat split;
    repeat match goal with |- kept ?g _ _ => destruct g; cbn; try reflexivity | |- _ -> _ => intro end; subst; try reflexivity;
    repeat match goal with
    | H : ?o <> None |- _ => destruct o; [clear H|contradiction]
    | |- kept ?g _ _ => destruct g; cbn; try reflexivity
    end; reflexivity.
Qed.

(** The full claim: if the constructor has accepted the arguments and the keywords suit the
    classes, then an archive can be opened with the policy; "on_leave" is what the archive gives the caches itself. *)
Definition C104_full_statement : Prop := forall a p writable, policy_init a = Ok p -> all_suit p ->
  ~ In "on_leave" (map fst (p_ccache_kw p)) -> ~ In "on_leave" (map fst (p_ecache_kw p)) ->
  init_parts p writable = Ok tt.
(** It does not hold: line 181 of policy.py does not look at the keywords of the uncompressed
    strategy, which may have "zim" in them; then an archive cannot be opened for writing. *)
Theorem C104_refuted : ~ C104_full_statement.
Proof.
  intro F.
  pose (a := mkargs [] None None None None None None None None None None None (Some [("compression_type", 1); ("zim", 0)]) true false (Some 2048) "load_or_reinit").
  specialize (F a (built a) true). assert (X : init_parts (built a) true = Ok tt).
  { apply F.
    - reflexivity.
    - unfold all_suit, suits. cbn. intuition (subst; auto).
    - cbn. intuition discriminate.
    - cbn. intuition discriminate. }
  vm_compute in X. discriminate X.
Qed.
(** It holds when "zim" is not among those keywords either, as documented, and for archives that are only read. *)
Theorem C104_usable_partial : forall a p writable, policy_init a = Ok p -> all_suit p ->
  ~ In "on_leave" (map fst (p_ccache_kw p)) -> ~ In "on_leave" (map fst (p_ecache_kw p)) ->
  documented a \/ writable = false ->
  init_parts p writable = Ok tt.
Proof.
  intros a p w H (S1 & S2 & S3 & S4) N1 N2 D. pose proof H as H'. apply init_ok in H'. destruct H' as [A E].
  unfold init_parts. rewrite (call_ok _ _ _ S1 N1), (call_ok _ _ _ S2 N2). cbn. destruct w; [|reflexivity].
  destruct D as [[_ D]|D]; [|discriminate D].
  rewrite (call_ok _ _ _ S3), (call_ok _ _ _ S4); [reflexivity| |]; subst p; cbn.
  - destruct (a_ustrategy_kw a) as [kw|]; cbn; [apply D; reflexivity|]. destruct (a_ustrategy a); cbn; intuition discriminate.
  - destruct A as (_ & _ & _ & _ & _ & _ & _ & _ & _ & _ & A).
    destruct (a_strategy_kw a) as [kw|]; cbn; [apply A; reflexivity|]. destruct (a_strategy a); cbn; intuition discriminate.
Qed.
(** The three policies of the module are accepted and archives can be opened with them in every mode. *)
Theorem C104_module : forall a, In a [no_args; low_ram_args; high_performance_args] ->
  exists p, policy_init a = Ok p /\ documented a /\ all_suit p /\ forall w, init_parts p w = Ok tt.
Proof.
  intros a I. assert (P : policy_init a = Ok (built a)).
  { cbn [In] in I. repeat destruct I as [<-|I]; try reflexivity. destruct I. }
  exists (built a). split; [exact P|]. split; [split; [apply init_ok in P; apply P|]|].
  - cbn [In] in I. repeat destruct I as [<-|I]; try destruct I; cbn; intros kw E; discriminate E.
  - split.
    + cbn [In] in I. repeat destruct I as [<-|I]; try destruct I; unfold all_suit, suits; cbn; intuition (subst; auto).
    + cbn [In] in I. intros []; repeat destruct I as [<-|I]; try destruct I; reflexivity.
Qed.
(** Only such policies can be used: keywords that do not suit a class are reported when the archive is opened. *)
Theorem C104_reported : forall p, (init_parts p true = Ok tt \/ init_parts p true = Err TypeError) /\
  (init_parts p true = Ok tt -> all_suit p /\
     ~ In "on_leave" (map fst (p_ccache_kw p)) /\ ~ In "on_leave" (map fst (p_ecache_kw p)) /\
     ~ In "zim" (map fst (p_strategy_kw p)) /\ ~ In "zim" (map fst (p_ustrategy_kw p))).
Proof.
  intro p. unfold init_parts, all_suit.
  destruct (call (p_ccache p) _ _) as [[]|x] eqn:E1; cbn [bind]; [|apply call_err in E1; subst; split; [right; reflexivity|discriminate]].
  destruct (call (p_ecache p) _ _) as [[]|x] eqn:E2; cbn [bind]; [|apply call_err in E2; subst; split; [right; reflexivity|discriminate]].
  destruct (call (p_strategy p) _ _) as [[]|x] eqn:E3; cbn [bind]; [|apply call_err in E3; subst; split; [right; reflexivity|discriminate]].
  destruct (call (p_ustrategy p) _ _) as [[]|x] eqn:E4; [|apply call_err in E4; subst; split; [right; reflexivity|discriminate]].
  split; [left; reflexivity|]. intros _. apply call_inv in E1, E2, E3, E4. tauto.
Qed.
Print Assumptions C104_accepted.
Print Assumptions C104_reported.
Print Assumptions C104_kept.
Print Assumptions C104_refuted.
Print Assumptions C104_usable_partial.
Print Assumptions C104_module.

(** ** Cases that meet the hypotheses *)
(** Other sizes, another strategy and mimetypes without reserved space. *)
Definition some_args : args :=
  mkargs [] None None None None (Some TopAccessCache) (Some [("max_size", 16)]) (Some HybridCache) (Some [("top_cache_size", 4)])
    (Some MimetypeBasedCompressionStrategy) None None (Some [("compression_type", 1); ("max_size", 1000)]) false true None "reinit".
Example C104_some : policy_init some_args = Ok (built some_args) /\ documented some_args /\ all_suit (built some_args) /\
  init_parts (built some_args) true = Ok tt.
Proof.
  assert (P : policy_init some_args = Ok (built some_args)) by reflexivity.
  split; [exact P|]. split; [split; [apply init_ok in P; apply P|cbn; intros kw E; injection E as <-; cbn; intuition discriminate]|].
  split; [unfold all_suit, suits; cbn; intuition (subst; auto)|reflexivity].
Qed.
(** Arguments that are refused: too little space. *)
Example C104_refused : policy_init (mkargs [] None None None None None None None None None None None None true false (Some 2) "load") = Err AssertionError.
Proof. reflexivity. Qed.
(** A policy that is accepted and whose cache does not have the keyword. *)
Example C104_unsuitable : exists p,
  policy_init (mkargs [] None None None None None None (Some HybridCache) (Some [("max_size", 4)]) None None None None true false None "load") = Ok p /\
  init_parts p true = Err TypeError.
Proof. eexists. split; reflexivity. Qed.
