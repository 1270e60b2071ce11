(** Property theorems C20 and C21: the mimetype counter. *)
From Coq Require Import List ZArith Bool.
From Verif Require Import Base Utf8 Counter CounterSpec CounterProofs.
Import ListNotations.
Open Scope Z_scope.

(** C20, full statement: every counter is read back from its string. *)
Definition C20_full_statement : Prop :=
  forall c, counter_wf c -> from_string (to_string c) = Ok (nonzero c).

(** False: 'a;b' (as in 'text/html;charset=utf-8') is cut at its ';' and the
    first half has no "=". *)
Theorem C20_refuted : ~ C20_full_statement.
Proof.
  intro H. specialize (H [([97; 59; 98], 1)]). vm_compute in H. discriminate H.
  constructor; [intros []|constructor].
Qed.
Print Assumptions C20_refuted.

(** With counts that happen to look alike the misreading is silent: 'a=1;b'
    counted twice is read as one 'a' and two 'b'. *)
Theorem C20_refuted_silently : exists c, counter_wf c /\ exists c', from_string (to_string c) = Ok c' /\ c' <> nonzero c.
Proof.
  exists [([97; 61; 49; 59; 98], 2)]. split; [constructor; [intros []|constructor]|].
  eexists. split; [vm_compute; reflexivity|vm_compute; discriminate].
Qed.
Print Assumptions C20_refuted_silently.

(** It holds when every ';' of a counted mimetype is followed by a space and no
    mimetype starts with a space.  Missing: other mimetypes. *)
Theorem C20_counter_roundtrip_partial : forall c, counter_wf c ->
  (forall m n, In (m, n) (nonzero c) -> safe_mime m) ->
  from_string (to_string c) = Ok (nonzero c).
Proof. exact counter_roundtrip. Qed.
Print Assumptions C20_counter_roundtrip_partial.

(** The same through the UTF-8 bytes stored in the archive. *)
Theorem C20_counter_bytes_partial : forall c b, counter_wf c ->
  (forall m n, In (m, n) (nonzero c) -> safe_mime m) ->
  encode (to_string c) = Ok b -> from_bytes b = Ok (nonzero c).
Proof. exact counter_roundtrip_bytes. Qed.
Print Assumptions C20_counter_bytes_partial.

(** 'a/b; c=d' eleven times, 'e=' once, 'f' not at all. *)
Definition C20_sample : counts := [([97; 47; 98; 59; 32; 99; 61; 100], 11); ([101; 61], 1); ([102], 0)].
Example C20_nontrivial : counter_wf C20_sample /\
  (forall m n, In (m, n) (nonzero C20_sample) -> safe_mime m) /\
  to_string C20_sample = [97; 47; 98; 59; 32; 99; 61; 100; 61; 49; 49; 59; 101; 61; 61; 49].
Proof.
  split; [|split; [|reflexivity]].
  - repeat constructor; cbn; intuition discriminate.
  - intros m n [E|[E|[]]]; injection E as <- <-; (split; [|discriminate]); cbn; intuition (try discriminate); eauto.
Qed.

(** C21, full statement: whatever is written and removed, no counter callback
    fails and every count is the number of content entries of that mimetype. *)
Definition C21_full_statement : Prop :=
  forall evs w c r, cev_run evs [] [] = Some (w, c, r) ->
    r = Ok tt /\ forall m, get_count m c = number_of m w.

Definition C21_a : ustr := [97].
Definition C21_b : ustr := [98].
Definition C21_page (m : ustr) : centry := mkCentry false 67 m.
Definition C21_redirect : centry := mkCentry true 67 C21_b.

(** False: turning a redirect into a page raises ValueError. *)
Theorem C21_refuted : ~ C21_full_statement.
Proof.
  intro H. specialize (H [EvNew C21_redirect; EvUpdate 0 (C21_page C21_a) false]).
  vm_compute in H. specialize (H _ _ _ eq_refl). destruct H as [H _]. discriminate H.
Qed.
Print Assumptions C21_refuted.

(** Turning a page into a redirect leaves it counted. *)
Theorem C21_refuted_to_redirect :
  exists evs w c, cev_run evs [] [] = Some (w, c, Ok tt) /\ get_count C21_a c = 1 /\ number_of C21_a w = 0.
Proof.
  exists [EvNew (C21_page C21_a); EvUpdate 0 C21_redirect false]. vm_compute. eauto.
Qed.
Print Assumptions C21_refuted_to_redirect.

(** Changing the mimetype of an entry obtained through the cache is not
    noticed: the old entry shown to the counter is the changed one. *)
Theorem C21_refuted_cached :
  exists evs w c, cev_run evs [] [] = Some (w, c, Ok tt) /\
    get_count C21_a c = 1 /\ number_of C21_a w = 0 /\ get_count C21_b c = 0 /\ number_of C21_b w = 1.
Proof.
  exists [EvNew (C21_page C21_a); EvUpdate 0 (C21_page C21_b) true]. vm_compute. eauto 10.
Qed.
Print Assumptions C21_refuted_cached.

(** It holds for every history of new entries, removals and updates that keep
    an entry a content entry (or keep it not one), mimetype changes included,
    unless the changed entry object itself is the cached one.
    Missing: the updates refuted above. *)
Theorem C21_counts_exact_partial : forall evs w c r,
  gentle_run evs [] -> cev_run evs [] [] = Some (w, c, r) ->
  r = Ok tt /\ (forall m, get_count m c = number_of m w) /\
  w = fold_left (fun w ev => match ev with
                             | EvNew e => w ++ [e]
                             | EvUpdate i e _ => set_nth i e w
                             | EvRemove i => del_nth i w
                             end) evs [].
Proof. intros evs w c r G H. exact (run_exact evs [] [] w c r exact_nil G H). Qed.
Print Assumptions C21_counts_exact_partial.

(** Continuing from exact counts, as after loading or re-counting an archive. *)
Theorem C21_counts_stay_exact_partial : forall evs w0 c0 w c r,
  (forall m, get_count m c0 = number_of m w0) -> gentle_run evs w0 -> cev_run evs w0 c0 = Some (w, c, r) ->
  r = Ok tt /\ (forall m, get_count m c = number_of m w).
Proof. intros evs w0 c0 w c r X G H. destruct (run_exact evs w0 c0 w c r X G H) as (R & Y & _). split; assumption. Qed.
Print Assumptions C21_counts_stay_exact_partial.

(** Re-counting an archive gives exact counts. *)
Theorem C21_reinit_exact : forall entries m, get_count m (reinit entries) = number_of m entries.
Proof. exact reinit_exact. Qed.
Print Assumptions C21_reinit_exact.

Definition C21_history : list cevent :=
  [EvNew (C21_page C21_a); EvNew C21_redirect; EvNew (C21_page C21_a); EvUpdate 2 (C21_page C21_b) false;
   EvUpdate 0 (C21_page C21_a) true; EvNew (C21_page C21_b); EvRemove 0].
Example C21_nontrivial : gentle_run C21_history [] /\
  exists w c, cev_run C21_history [] [] = Some (w, c, Ok tt) /\ get_count C21_b c = 2 /\ get_count C21_a c = 0.
Proof.
  split.
  - cbn [C21_history gentle_run gentle set_nth app nth_error].
    intuition (try match goal with H : Some _ = Some _ |- _ => injection H as <- end; auto; discriminate).
  - vm_compute. eauto 10.
Qed.

(** Whatever happens, also in the cases refuted above, no count becomes
    negative: a decrement of a count that is not positive raises ValueError and
    changes nothing; other decrements take one away from their own count only. *)
Theorem C21_never_negative : forall evs w0 c0 w c r,
  (forall m, 0 <= get_count m c0) -> cev_run evs w0 c0 = Some (w, c, r) -> forall m, 0 <= get_count m c.
Proof. intros evs w0 c0 w c r N H. exact (run_nonneg evs w0 c0 w c r H N). Qed.
Print Assumptions C21_never_negative.
Theorem C21_decrement : forall k c,
  (get_count k c > 0 /\ exists c', decrement k c = Ok c' /\ forall m, get_count m c' = get_count m c - (if ueqb k m then 1 else 0)) \/
  (get_count k c <= 0 /\ decrement k c = Err ValueError).
Proof. exact decrement_exact. Qed.
Print Assumptions C21_decrement.
Example C21_decrement_both : decrement C21_a [(C21_a, 2)] = Ok [(C21_a, 1)] /\ decrement C21_a [(C21_a, 0)] = Err ValueError.
Proof. split; reflexivity. Qed.
