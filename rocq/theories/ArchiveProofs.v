(** Proofs about the entry layer of an archive. *)
From Coq Require Import List ZArith Bool Lia Sorting.Sorted Sorting.Permutation.
From Coq Require Import ZifyBool ZifyNat.
From Verif Require Import Base BaseProofs Utf8 Utf8Proofs Entry EntrySpec EntryProofs
  PointerList PointerListSpec PointerListProofs SpaceAllocator SpaceAllocatorSpec SpaceAllocatorProofs
  Cluster Archive ArchiveSpec.
Import ListNotations.
Open Scope Z_scope.

(** *** strings of stored entries *)
Lemma storable_nstitle : forall e, entry_storable e ->
  exists nb ub tb, utf8_encode (e_ns e) = Some nb /\ utf8_encode (e_url e) = Some ub /\ utf8_encode (title e) = Some tb.
Proof.
  intros e (_ & (x & Hn) & (Hu & _) & (t & Ht & (Hte & _)) & _). destruct Hu as [ub Hu]. destruct Hte as [tb Htb].
  exists [x], ub. unfold title. rewrite Ht. destruct t as [|c t].
  - exists ub. auto.
  - exists tb. auto.
Qed.

Definition enc (s : ustr) : bytes := match utf8_encode s with Some b => b | None => [] end.

Lemma enc_full_url : forall e, entry_storable e -> utf8_encode (full_url e) = Some (enc (full_url e)).
Proof.
  intros e H. destruct (storable_nstitle e H) as (nb & ub & tb & Hn & Hu & _).
  unfold enc, full_url. rewrite (utf8_encode_app _ _ _ _ Hn Hu). reflexivity.
Qed.
Lemma enc_title : forall e, entry_storable e -> utf8_encode (title e) = Some (enc (title e)).
Proof. intros e H. destruct (storable_nstitle e H) as (nb & ub & tb & _ & _ & Ht). unfold enc. rewrite Ht. reflexivity. Qed.
Lemma enc_nstitle : forall e, entry_storable e -> utf8_encode (e_ns e ++ title e) = Some (enc (e_ns e ++ title e)).
Proof.
  intros e H. destruct (storable_nstitle e H) as (nb & ub & tb & Hn & _ & Ht).
  unfold enc. rewrite (utf8_encode_app _ _ _ _ Hn Ht). reflexivity.
Qed.
Lemma encode_some : forall s b, utf8_encode s = Some b -> encode s = Ok b.
Proof. intros s b H. unfold encode. rewrite H. reflexivity. Qed.

(** *** reading stored entries *)
Lemma stored_read : forall s p e, stored (z_file s) p e -> get_entry_at s p = Ok e.
Proof.
  intros s p e (Hp & Hs & Hk & b & Hb & Hf). unfold get_entry_at. replace (p <? 0) with false by lia.
  eapply entry_at_stored; eauto.
Qed.

Lemma span_ok : forall e b, entry_to_bytes e = Ok b -> span e = zlen b.
Proof. intros e b H. unfold span. rewrite H. reflexivity. Qed.

Lemma storable_span : forall e, entry_storable e -> entry_disk_size e = Ok (span e) /\ 0 < span e.
Proof.
  intros e H. destruct (entry_size_storable e H) as (b & Hb & Hs). rewrite (span_ok e b Hb). split; [exact Hs|].
  assert (b <> []).
  { intros ->. apply entry_size_exact in Hb. unfold entry_disk_size in Hs.
    destruct (encode (e_url e)) as [u|]; [|discriminate]. cbn [bind] in Hs.
    assert (Ht : forall t, match e_title e with Some (c :: t) => do b <- encode (c :: t) ;; Ok (zlen b + 1) | _ => Ok 1 end = Ok t -> 0 < t).
    { intros t. destruct (e_title e) as [[|c l]|]; intro X; try (injection X; lia).
      destruct (encode (c :: l)) as [y|]; cbn [bind] in X; [|discriminate]. injection X as <-. pose proof (zlen_nonneg y). lia. }
    destruct (match e_title e with Some (c :: t) => do b <- encode (c :: t) ;; Ok (zlen b + 1) | _ => Ok 1 end) as [t|]; [|discriminate].
    specialize (Ht t eq_refl). cbn [bind] in Hs. injection Hs as Hs. pose proof (zlen_nonneg u). change (zlen (@nil byte)) with 0 in Hs.
    destruct (e_kind e); lia. }
  destruct b as [|x b]; [congruence|]. rewrite zlen_cons. pose proof (zlen_nonneg b). lia.
Qed.

Lemma core_nth : forall s cells i c, core s cells -> znth cells i = Some c -> stored (z_file s) (fst c) (snd c).
Proof.
  intros s cells i c C H. pose proof (co_stored _ _ C) as F. rewrite Forall_forall in F. apply F. eapply znth_in; eauto.
Qed.

Lemma znth_map : forall {A B} (f : A -> B) l i, znth (map f l) i = option_map f (znth l i).
Proof. intros. unfold znth. destruct (i <? 0); [reflexivity|]. apply nth_error_map. Qed.

Lemma zlen_map : forall {A B} (f : A -> B) l, zlen (map f l) = zlen l.
Proof. intros. unfold zlen. rewrite map_length. reflexivity. Qed.

Lemma by_index_ok : forall s cells i c, core s cells -> znth cells i = Some c ->
  get_by_index (pl_ptrs (z_upl s)) i = Ok (fst c).
Proof.
  intros s cells i c C H. rewrite get_by_index_znth by (apply znth_some in H; lia).
  rewrite (co_locs _ _ C), znth_map, H. reflexivity.
Qed.

Lemma entry_by_index : forall s cells i c, core s cells -> znth cells i = Some c ->
  get_entry_by_url_index s i = Ok (snd c).
Proof.
  intros s cells i c C H. unfold get_entry_by_url_index. pose proof (znth_some _ _ _ H).
  replace (i <? 0) with false by lia. rewrite (by_index_ok _ _ _ _ C H).
  apply stored_read. eapply core_nth; eauto.
Qed.

Lemma entry_by_index_L : forall s cells i e, core s cells -> znth (map snd cells) i = Some e ->
  get_entry_by_url_index s i = Ok e.
Proof.
  intros s cells i e C H. rewrite znth_map in H. destruct (znth cells i) as [c|] eqn:E; [|discriminate].
  injection H as <-. eapply entry_by_index; eauto.
Qed.

(** the range of indices *)
Lemma znth_ex : forall {A} (l : list A) i, 0 <= i < zlen l -> exists x, znth l i = Some x.
Proof. intros A l i H. destruct (znth l i) as [x|] eqn:E; [eauto|]. apply znth_none in E; lia. Qed.

(** *** keys of the lists *)
Lemma stored_cells_url_keys : forall s cells, Forall (fun c => stored (z_file s) (fst c) (snd c)) cells ->
  keys_are (url_key s) (map fst cells) (map (fun c => enc (full_url (snd c))) cells).
Proof.
  intros s cells H. unfold keys_are. induction H as [|c cells Hc H IH]; cbn [map]; constructor; [|exact IH].
  unfold url_key. rewrite (stored_read _ _ _ Hc). cbn [bind]. destruct Hc as (_ & Hs & _).
  rewrite (encode_some _ _ (enc_full_url _ Hs)). reflexivity.
Qed.

Lemma url_sorted_keys : forall cells, Forall (fun c => entry_storable (snd c)) cells -> StronglySorted url_lt (map snd cells) ->
  StronglySorted ble (map (fun c : Z * entry => enc (full_url (snd c))) cells).
Proof.
  induction cells as [|c cells IH]; cbn [map]; intros F S; [constructor|].
  inversion F as [|? ? F1 F2]; subst. apply ssorted_cons in S as [S1 S2]. constructor; [auto|].
  rewrite Forall_forall in S2, F2 |- *. intros k Hk. apply in_map_iff in Hk as (d & <- & Hd).
  unfold ble. rewrite (utf8_order _ _ _ _ (enc_full_url _ (F2 d Hd)) (enc_full_url _ F1)).
  specialize (S2 (snd d) (in_map _ _ _ Hd)). unfold url_lt in S2.
  destruct (ultb (full_url (snd d)) (full_url (snd c))) eqn:E; [|reflexivity].
  rewrite <- (utf8_order _ _ _ _ (enc_full_url _ F1) (enc_full_url _ (F2 d Hd))) in S2.
  rewrite <- (utf8_order _ _ _ _ (enc_full_url _ (F2 d Hd)) (enc_full_url _ F1)) in E.
  apply bltb_asym in S2. congruence.
Qed.

Lemma stored_storable : forall s cells, Forall (fun c => stored (z_file s) (fst c) (snd c)) cells ->
  Forall (fun c : Z * entry => entry_storable (snd c)) cells.
Proof. intros s cells H. eapply Forall_impl; [|exact H]. intros c (_ & Hs & _). exact Hs. Qed.

Lemma core_url_sorted : forall s cells, core s cells -> sorted_by (url_key s) (pl_ptrs (z_upl s)).
Proof.
  intros s cells C. rewrite (co_locs _ _ C). exists (map (fun c => enc (full_url (snd c))) cells). split.
  - apply stored_cells_url_keys. apply (co_stored _ _ C).
  - apply url_sorted_keys; [eapply stored_storable; apply (co_stored _ _ C)|apply (co_sorted _ _ C)].
Qed.

Lemma url_lt_irrefl : forall e, ~ url_lt e e.
Proof. intros e H. unfold url_lt in H. rewrite ultb_irrefl in H. discriminate. Qed.

Lemma ssorted_znth : forall {A} (R : A -> A -> Prop) l, StronglySorted R l ->
  forall i j a b, znth l i = Some a -> znth l j = Some b -> i < j -> R a b.
Proof.
  intros A R l S. induction S as [|x l S IH F]; intros i j a b Ha Hb Hij.
  - apply znth_some in Ha. change (zlen (@nil A)) with 0 in Ha. lia.
  - pose proof (znth_some _ _ _ Ha). pose proof (znth_some _ _ _ Hb).
    assert (Sh : forall z c, 0 < z -> znth (x :: l) z = Some c -> znth l (z - 1) = Some c).
    { intros z c Hz H1. change (x :: l) with ([x] ++ l) in H1. rewrite znth_app_r in H1 by (rewrite zlen_cons, zlen_nil; lia). exact H1. }
    apply Sh in Hb; [|lia]. destruct (Z.eq_dec i 0) as [->|Hi].
    + rewrite znth_cons_0 in Ha. injection Ha as <-. rewrite Forall_forall in F. apply F. eapply znth_in; eauto.
    + apply Sh in Ha; [|lia]. eapply IH; eauto. lia.
Qed.

(** urls identify entries *)
Lemma url_unique : forall L i j a b, StronglySorted url_lt L -> znth L i = Some a -> znth L j = Some b ->
  full_url a = full_url b -> i = j.
Proof.
  intros L i j a b S Ha Hb E.
  destruct (Z.lt_trichotomy i j) as [H|[H|H]]; [|exact H|]; exfalso.
  - pose proof (ssorted_znth _ _ S _ _ _ _ Ha Hb H) as R. unfold url_lt in R. rewrite E, ultb_irrefl in R. discriminate.
  - pose proof (ssorted_znth _ _ S _ _ _ _ Hb Ha H) as R. unfold url_lt in R. rewrite E, ultb_irrefl in R. discriminate.
Qed.

Lemma url_index_found : forall s cells i c, core s cells -> znth cells i = Some c ->
  url_index s (full_url (snd c)) = Ok i.
Proof.
  intros s cells i c C H. unfold url_index. pose proof (core_nth _ _ _ _ C H) as St. destruct St as (_ & Hs & _).
  rewrite (encode_some _ _ (enc_full_url _ Hs)). cbn [bind].
  pose proof (get_index_gen_spec (url_key s) _ _ (enc (full_url (snd c))) (get_by_index_accessor _) (core_url_sorted _ _ C)) as G.
  unfold get_index. destruct (get_index_gen _ _ _ _) as [j|x].
  - destruct G as ((p & Hp & Hk) & _). f_equal. rewrite (co_locs _ _ C), znth_map in Hp.
    destruct (znth cells j) as [d|] eqn:E; [|discriminate]. injection Hp as <-.
    pose proof (core_nth _ _ _ _ C E) as Sd. unfold url_key in Hk. rewrite (stored_read _ _ _ Sd) in Hk. cbn [bind] in Hk.
    destruct Sd as (_ & Hd & _). rewrite (encode_some _ _ (enc_full_url _ Hd)) in Hk. injection Hk as Hk.
    eapply (url_unique (map snd cells)); [apply (co_sorted _ _ C)|rewrite znth_map, E; reflexivity|rewrite znth_map, H; reflexivity|].
    eapply utf8_encode_inj; [apply enc_full_url; exact Hd|rewrite Hk; apply enc_full_url; exact Hs].
  - destruct G as [_ G]. exfalso. apply (G (fst c)).
    + rewrite (co_locs _ _ C). apply in_map. eapply znth_in; eauto.
    + unfold url_key. rewrite (stored_read _ _ _ (core_nth _ _ _ _ C H)). cbn [bind].
      rewrite (encode_some _ _ (enc_full_url _ Hs)). reflexivity.
Qed.

Lemma url_index_missing : forall s cells u b, core s cells -> utf8_encode u = Some b ->
  (forall c, In c cells -> full_url (snd c) <> u) -> url_index s u = Err KeyError.
Proof.
  intros s cells u b C Hb Hn. unfold url_index. rewrite (encode_some _ _ Hb). cbn [bind].
  pose proof (get_index_gen_spec (url_key s) _ _ b (get_by_index_accessor _) (core_url_sorted _ _ C)) as G.
  unfold get_index. destruct (get_index_gen _ _ _ _) as [j|x].
  - exfalso. destruct G as ((p & Hp & Hk) & _). rewrite (co_locs _ _ C), znth_map in Hp.
    destruct (znth cells j) as [d|] eqn:E; [|discriminate]. injection Hp as <-.
    pose proof (core_nth _ _ _ _ C E) as Sd. unfold url_key in Hk. rewrite (stored_read _ _ _ Sd) in Hk. cbn [bind] in Hk.
    destruct Sd as (_ & Hd & _). rewrite (encode_some _ _ (enc_full_url _ Hd)) in Hk. injection Hk as Hk.
    apply (Hn d); [eapply znth_in; eauto|]. eapply utf8_encode_inj; [apply enc_full_url; exact Hd|rewrite Hk; exact Hb].
  - destruct G as [-> _]. reflexivity.
Qed.

Lemma url_pointer_index : forall s u, url_pointer s u = do i <- url_index s u ;; get_by_index (pl_ptrs (z_upl s)) i.
Proof. intros s u. unfold url_pointer, url_index, get, get_gen, get_index. destruct (encode u); reflexivity. Qed.

Lemma url_pointer_found : forall s cells i c, core s cells -> znth cells i = Some c ->
  url_pointer s (full_url (snd c)) = Ok (fst c).
Proof.
  intros s cells i c C H. rewrite url_pointer_index, (url_index_found _ _ _ _ C H). cbn [bind].
  eapply by_index_ok; eauto.
Qed.

Lemma lookup_found : forall s cells i c, core s cells -> znth cells i = Some c ->
  get_entry_by_full_url s (full_url (snd c)) = Ok (snd c).
Proof.
  intros s cells i c C H. unfold get_entry_by_full_url. rewrite (url_pointer_found _ _ _ _ C H).
  apply stored_read. eapply core_nth; eauto.
Qed.

Lemma lookup_missing : forall s cells u b, core s cells -> utf8_encode u = Some b ->
  (forall c, In c cells -> full_url (snd c) <> u) -> get_entry_by_full_url s u = Err EntryNotFound.
Proof.
  intros s cells u b C Hb Hn. unfold get_entry_by_full_url. rewrite url_pointer_index, (url_index_missing _ _ _ _ C Hb Hn). reflexivity.
Qed.

(** *** the title lists are sorted by their keys *)
Lemma lists_sorted_by : forall (K : entry -> ustr) (kf : Z -> res bytes) L t,
  (forall e, In e L -> entry_storable e) ->
  (forall e, entry_storable e -> utf8_encode (K e) = Some (enc (K e))) ->
  (forall i e, znth L i = Some e -> kf i = Ok (enc (K e))) ->
  lists (fun a b => ultb (K b) (K a) = false) L t -> sorted_by kf t.
Proof.
  intros K kf L t HS HK Hkf (ND & es & HF & HSo).
  exists (map (fun e => enc (K e)) es). split.
  - unfold keys_are. clear ND HSo. induction HF as [|i e t es He HF IH]; cbn [map]; constructor; auto.
  - assert (HI : forall e, In e es -> In e L).
    { clear ND HSo. induction HF as [|i e t es He HF IH]; intros d Hd; [destruct Hd|].
      destruct Hd as [ <- | Hd]; auto. eapply znth_in; eauto. }
    clear HF ND. induction HSo as [|e es HSo IH Hf]; cbn [map]; [constructor|].
    constructor; [apply IH; intros; apply HI; right; assumption|].
    rewrite Forall_forall in Hf |- *. intros k Hk. apply in_map_iff in Hk as (d & <- & Hd).
    unfold ble. rewrite (utf8_order _ _ _ _ (HK d (HS d (HI d (or_intror Hd)))) (HK e (HS e (HI e (or_introl eq_refl))))). apply Hf. exact Hd.
Qed.

Lemma core_storable_L : forall s cells, core s cells -> forall e, In e (map snd cells) -> entry_storable e.
Proof.
  intros s cells C e H. apply in_map_iff in H as (c & <- & Hc). pose proof (co_stored _ _ C) as F. rewrite Forall_forall in F.
  destruct (F c Hc) as (_ & Hs & _). exact Hs.
Qed.

Lemma title_key_ok : forall s cells i e, core s cells -> znth (map snd cells) i = Some e -> title_key s i = Ok (enc (title e)).
Proof.
  intros s cells i e C H. unfold title_key. rewrite (entry_by_index_L _ _ _ _ C H). cbn [bind].
  apply encode_some, enc_title. eapply core_storable_L; eauto. eapply znth_in; eauto.
Qed.
Lemma nstitle_key_ok : forall s cells i e, core s cells -> znth (map snd cells) i = Some e -> nstitle_key s i = Ok (enc (e_ns e ++ title e)).
Proof.
  intros s cells i e C H. unfold nstitle_key. rewrite (entry_by_index_L _ _ _ _ C H). cbn [bind].
  apply encode_some, enc_nstitle. eapply core_storable_L; eauto. eapply znth_in; eauto.
Qed.

(** Inserting an index at its place in a title list.  [kf] may be any key
    function that agrees with the entries. *)
Lemma lists_add : forall (K : entry -> ustr) (kf : Z -> res bytes) L o i e,
  (forall e, In e L -> entry_storable e) ->
  (forall e, entry_storable e -> utf8_encode (K e) = Some (enc (K e))) ->
  (forall i e, znth L i = Some e -> kf i = Ok (enc (K e))) ->
  lists (fun a b => ultb (K b) (K a) = false) L (pl_ptrs o) -> pl_mutable o = true ->
  znth L i = Some e -> ~ In i (pl_ptrs o) ->
  exists k o', pl_add kf (enc (K e)) i o = Ok (k, o') /\
    lists (fun a b => ultb (K b) (K a) = false) L (pl_ptrs o') /\ Permutation (pl_ptrs o') (i :: pl_ptrs o) /\
    pl_mutable o' = true.
Proof.
  intros K kf L o i e HS HK Hkf Hl Hm Hi Hni.
  pose proof (lists_sorted_by K kf L _ HS HK Hkf Hl) as Sb. pose proof (znth_some _ _ _ Hi).
  destruct (pl_add_total kf o (enc (K e)) i Sb ltac:(lia) Hm) as (k & o' & Ha). exists k, o'. split; [exact Ha|].
  destruct (pl_add_spec kf _ _ _ _ _ Sb (Hkf i e Hi) Ha) as (Sb' & _ & a & b & E1 & E2 & _ & Hlt & Hge).
  assert (Pm : Permutation (pl_ptrs o') (i :: pl_ptrs o)).
  { rewrite E1, E2. symmetry. apply Permutation_middle. }
  assert (Hmut : pl_mutable o' = true).
  { unfold pl_add in Ha. destruct (i <? 0); [discriminate|]. rewrite Hm in Ha. cbn [negb] in Ha.
    destruct (binarysearch _ _ _); [|discriminate]. cbn [bind] in Ha. injection Ha as _ <-. exact Hm. }
  split; [|split; [exact Pm|exact Hmut]].
  destruct Hl as (ND & es & HF & HSo). split.
  - eapply Permutation_NoDup; [symmetry; exact Pm|]. constructor; assumption.
  - rewrite E1 in HF. apply Forall2_app_inv_l in HF as (ea & eb & Fa & Fb & ->).
    exists (ea ++ e :: eb). rewrite E2. split; [apply Forall2_app; [exact Fa|constructor; [exact Hi|exact Fb]]|].
    apply ssorted_app in HSo as (Sa & Sb2 & Sab). apply ssorted_app.
    assert (Ina : forall d, In d ea -> exists q, In q a /\ znth L q = Some d).
    { clear -Fa. induction Fa as [|q d a ea Hq Fa IH]; intros x Hx; [destruct Hx|]. destruct Hx as [ <- | Hx].
      - exists q. split; [left; reflexivity|exact Hq].
      - destruct (IH x Hx) as (q' & ? & ?). exists q'. split; [right|]; assumption. }
    assert (Inb : forall d, In d eb -> exists q, In q b /\ znth L q = Some d).
    { clear -Fb. induction Fb as [|q d b eb Hq Fb IH]; intros x Hx; [destruct Hx|]. destruct Hx as [ <- | Hx].
      - exists q. split; [left; reflexivity|exact Hq].
      - destruct (IH x Hx) as (q' & ? & ?). exists q'. split; [right|]; assumption. }
    assert (He : entry_storable e) by (apply HS; eapply znth_in; eauto).
    split; [exact Sa|]. split.
    + apply ssorted_cons. split; [exact Sb2|]. rewrite Forall_forall. intros d Hd. destruct (Inb d Hd) as (q & Hq & Hz).
      assert (Hd' : entry_storable d) by (apply HS; eapply znth_in; eauto).
      specialize (Hge q _ Hq (Hkf q d Hz)). rewrite (utf8_order _ _ _ _ (HK d Hd') (HK e He)) in Hge. exact Hge.
    + intros x y Hx [ <- | Hy]; [|apply Sab; assumption]. destruct (Ina x Hx) as (q & Hq & Hz).
      assert (Hx' : entry_storable x) by (apply HS; eapply znth_in; eauto).
      specialize (Hlt q _ Hq (Hkf q x Hz)). apply bltb_asym in Hlt.
      rewrite (utf8_order _ _ _ _ (HK e He) (HK x Hx')) in Hlt. exact Hlt.
Qed.

(** Dropping the index [i] (found by [get_by_pointer]). *)
Lemma drop_at : forall o i k, get_by_pointer (pl_ptrs o) i = Ok k -> pl_mutable o = true ->
  exists a b o', pl_ptrs o = a ++ i :: b /\ zlen a = k /\ pl_remove_by_index k o = Ok o' /\ pl_ptrs o' = a ++ b /\ pl_mutable o' = true.
Proof.
  intros o i k H Hm. pose proof (get_by_pointer_spec (pl_ptrs o) i) as G. rewrite H in G. destruct G as [Hz _].
  pose proof (znth_some _ _ _ Hz) as R. unfold znth in Hz. replace (k <? 0) with false in Hz by lia.
  apply nth_error_split in Hz as (a & b & E & La). unfold pl_remove_by_index. replace (k <? 0) with false by lia. rewrite Hm. cbn [negb].
  unfold py_index. replace ((0 <=? k) && (k <? zlen (pl_ptrs o))) with true by lia.
  exists a, b. eexists. split; [exact E|]. split; [unfold zlen; lia|]. split; [reflexivity|].
  cbn [pl_ptrs pl_change pl_mutable]. split; [|exact Hm]. rewrite E. apply list_pop_mid. lia.
Qed.

Lemma lists_drop : forall le L a i b, lists le L (a ++ i :: b) -> lists le L (a ++ b) /\ ~ In i (a ++ b).
Proof.
  intros le L a i b (ND & es & HF & S). apply Forall2_app_inv_l in HF as (ea & eb & Fa & Fb & ->).
  inversion Fb as [|? d ? eb' Hd Fb']; subst. split.
  - split; [apply NoDup_remove_1 in ND; exact ND|]. exists (ea ++ eb'). split; [apply Forall2_app; assumption|].
    apply ssorted_app in S as (S1 & S2 & S3). apply ssorted_cons in S2 as [S2 _]. apply ssorted_app. split; [exact S1|]. split; [exact S2|].
    intros; apply S3; [assumption|right; assumption].
  - apply NoDup_remove_2 in ND. exact ND.
Qed.

(** A title list only depends on the entries it refers to. *)
Lemma lists_ext : forall le L L' t, (forall i, In i t -> znth L' i = znth L i) -> lists le L t -> lists le L' t.
Proof.
  intros le L L' t H (ND & es & HF & S). split; [exact ND|]. exists es. split; [|exact S].
  clear ND S. induction HF as [|i e t es He HF IH]; constructor.
  - rewrite H by (left; reflexivity). exact He.
  - apply IH. intros; apply H; right; assumption.
Qed.

Lemma lists_renumber : forall le L L' t (f : Z -> Z), (forall i, In i t -> znth L' (f i) = znth L i) ->
  (forall i j, In i t -> In j t -> f i = f j -> i = j) -> lists le L t -> lists le L' (map f t).
Proof.
  intros le L L' t f H Hinj (ND & es & HF & S). split.
  - clear HF S H. induction ND as [|x t Hx ND IH]; cbn [map]; constructor.
    + intro Hi. apply in_map_iff in Hi as (y & Hy & Hyt). apply Hx. rewrite (Hinj x y); auto; [left; reflexivity|right; assumption].
    + apply IH. intros; apply Hinj; auto; right; assumption.
  - exists es. split; [|exact S]. clear ND S Hinj. induction HF as [|i e t es He HF IH]; cbn [map]; constructor.
    + rewrite H by (left; reflexivity). exact He.
    + apply IH. intros; apply H; right; assumption.
Qed.

Lemma lists_in : forall le L t i, lists le L t -> In i t -> exists e, znth L i = Some e.
Proof.
  intros le L t i (_ & es & HF & _) Hi. induction HF as [|j e t es He HF IH]; [destruct Hi|].
  destruct Hi as [ <- | Hi]; eauto.
Qed.

(** *** running the monad *)
Lemma mbind_ok : forall {St A B} (m : M St A) (k : A -> M St B) s a s', m s = (Ok a, s') -> mbind m k s = k a s'.
Proof. intros St A B m k s a s' H. unfold mbind. rewrite H. reflexivity. Qed.
Lemma mbind_err : forall {St A B} (m : M St A) (k : A -> M St B) s x s', m s = (Err x, s') -> mbind m k s = (Err x, s').
Proof. intros St A B m k s a s' H. unfold mbind. rewrite H. reflexivity. Qed.
Lemma mbind_inv : forall {St A B} (m : M St A) (k : A -> M St B) s b s', mbind m k s = (Ok b, s') ->
  exists a s1, m s = (Ok a, s1) /\ k a s1 = (Ok b, s').
Proof. intros St A B m k s b s' H. unfold mbind in H. destruct (m s) as [[a|x] s1]; [eauto|discriminate]. Qed.
Lemma update_ok : forall u s s', u s = Ok s' -> update u s = (Ok tt, s').
Proof. intros u s s' H. unfold update. rewrite H. reflexivity. Qed.
Lemma query_ok : forall {A} (q : zim -> res A) s a, q s = Ok a -> query q s = (Ok a, s).
Proof. intros A q s a H. unfold query. rewrite H. reflexivity. Qed.

(** *** which bytes of the file are kept *)
Definition keeps (f f' : bytes) (P : Z -> Prop) : Prop :=
  forall x, 0 <= x < zlen f -> P x -> nth_error f' (Z.to_nat x) = nth_error f (Z.to_nat x).

Lemma keeps_refl : forall f P, keeps f f P.
Proof. intros f P x _ _. reflexivity. Qed.

Lemma keeps_trans : forall f g h (P Q : Z -> Prop), keeps f g P -> keeps g h Q -> zlen f <= zlen g ->
  keeps f h (fun x => P x /\ Q x).
Proof. intros f g h P Q H1 H2 L x Hx [Hp Hq]. rewrite H2 by (auto; lia). apply H1; auto. Qed.

Lemma keeps_weaken : forall f g (P Q : Z -> Prop), keeps f g P -> (forall x, Q x -> P x) -> keeps f g Q.
Proof. intros f g P Q H W x Hx Hq. apply H; auto. Qed.

Lemma keeps_fwrite : forall f off bs, 0 <= off -> keeps f (fwrite f off bs) (fun x => ~ (off <= x < off + zlen bs)).
Proof.
  intros f off bs H x Hx Hn. rewrite fwrite_nth by lia. pose proof (zlen_nonneg bs).
  destruct (Z.of_nat (Z.to_nat x) <? off) eqn:E1.
  - replace (Z.of_nat (Z.to_nat x) <? zlen f) with true by lia. reflexivity.
  - replace (Z.of_nat (Z.to_nat x) <? off + zlen bs) with false by lia. reflexivity.
Qed.

Lemma keeps_fread : forall f g o n, 0 <= o -> o + n <= zlen f -> keeps f g (fun x => o <= x < o + n) -> fread g o n = fread f o n.
Proof.
  intros f g o n Ho Hn K. apply nth_error_ext. intro i. unfold fread. rewrite !nth_error_zsub by lia.
  destruct (Z.of_nat i <? n) eqn:E; [|reflexivity].
  specialize (K (o + Z.of_nat i) ltac:(lia) ltac:(cbv beta; lia)).
  replace (Z.to_nat (o + Z.of_nat i)) with (Z.to_nat o + i)%nat in K by lia. exact K.
Qed.

Lemma fread_full : forall f o b, 0 <= o -> fread f o (zlen b) = b -> 0 < zlen b -> o + zlen b <= zlen f.
Proof.
  intros f o b Ho H Hb. apply (f_equal zlen) in H. unfold fread, zsub in H.
  rewrite ztake_len, zskip_len in H by (pose proof (zlen_nonneg b); lia). lia.
Qed.

Lemma stored_keeps : forall f g p e, stored f p e -> keeps f g (occupies (p, e)) -> stored g p e.
Proof.
  intros f g p e (Hp & Hs & Hk & b & Hb & Hf) K. split; [exact Hp|]. split; [exact Hs|]. split; [exact Hk|].
  exists b. split; [exact Hb|]. rewrite <- Hf at 2. destruct (storable_span e Hs) as [_ Hpos]. rewrite (span_ok _ _ Hb) in Hpos.
  apply keeps_fread; [exact Hp|apply fread_full; assumption|]. eapply keeps_weaken; [exact K|].
  intros x Hx. unfold occupies. cbn [fst snd]. rewrite (span_ok _ _ Hb). exact Hx.
Qed.

(** relation between the members of an optional list before and after *)
Definition etpl_rel (P : list Z -> list Z -> Prop) (a b : option plist) : Prop :=
  match a, b with
  | None, None => True
  | Some t, Some t' => P (pl_ptrs t) (pl_ptrs t')
  | _, _ => False
  end.

(** *** inserting the titles of an entry *)
Lemma add_titles_ok : forall s cells i e a, core s cells -> znth (map snd cells) i = Some e ->
  (forall t, z_etpl s = Some t -> ~ In i (pl_ptrs t)) -> ~ In i (pl_ptrs (z_atpl s)) -> (a = true -> e_ns e = NS_C) ->
  exists s', add_titles e a i s = (Ok tt, s') /\ core s' cells /\
    z_upl s' = z_upl s /\ z_main s' = z_main s /\ z_alloc s' = z_alloc s /\ z_file s' = z_file s /\
    etpl_rel (fun t t' => Permutation t' (i :: t)) (z_etpl s) (z_etpl s') /\
    Permutation (pl_ptrs (z_atpl s')) (if a then i :: pl_ptrs (z_atpl s) else pl_ptrs (z_atpl s)).
Proof.
  intros s cells i e a C Hi Het Hat Ha. unfold add_titles.
  assert (He : entry_storable e) by (eapply core_storable_L; eauto; eapply znth_in; eauto).
  assert (S1 : exists s1, update (fun s => match z_etpl s with
                   | None => Ok s
                   | Some t => do k <- encode (e_ns e ++ title e) ;;
                               do it <- pl_add (nstitle_key s) k i t ;; Ok (set_etpl (Some (snd it)) s)
                   end) s = (Ok tt, s1) /\ core s1 cells /\ z_upl s1 = z_upl s /\ z_main s1 = z_main s /\ z_alloc s1 = z_alloc s /\
                   z_file s1 = z_file s /\ z_atpl s1 = z_atpl s /\ etpl_rel (fun t t' => Permutation t' (i :: t)) (z_etpl s) (z_etpl s1)).
  { destruct (z_etpl s) as [t|] eqn:Et.
    - destruct (lists_add (fun e => e_ns e ++ title e) (nstitle_key s) (map snd cells) t i e) as (k & t' & Hadd & Hl & Pm & Hm); auto.
      + apply (core_storable_L _ _ C).
      + intros; apply enc_nstitle; assumption.
      + intros; eapply nstitle_key_ok; eauto.
      + apply (co_etpl _ _ C); assumption.
      + apply (co_mut_e _ _ C); assumption.
      + exists (set_etpl (Some t') s). split.
        { apply update_ok. rewrite Et, (encode_some _ _ (enc_nstitle _ He)). cbn [bind]. rewrite Hadd. reflexivity. }
        split; [|split; [|split; [|split; [|split; [|split]]]]]; try reflexivity; [|exact Pm].
        destruct C. constructor; cbn [set_etpl z_upl z_file z_alloc z_atpl z_etpl]; auto.
        * intros x Hx. injection Hx as <-. exact Hl.
        * intros x Hx. injection Hx as <-. exact Hm.
    - exists s. split; [apply update_ok; rewrite Et; reflexivity|]. split; [exact C|]. do 5 (split; [reflexivity|]). rewrite Et. exact I. }
  destruct S1 as (s1 & E1 & C1 & U1 & M1 & A1 & F1 & T1 & R1). rewrite (mbind_ok _ _ _ _ _ E1).
  destruct a.
  - destruct (lists_add title (title_key s1) (map snd cells) (z_atpl s1) i e) as (k & t' & Hadd & Hl & Pm & Hm); auto.
    + apply (core_storable_L _ _ C).
    + intros; apply enc_title; assumption.
    + intros; eapply title_key_ok; eauto.
    + apply (co_atpl _ _ C1).
    + apply (co_mut_a _ _ C1).
    + rewrite T1. exact Hat.
    + exists (set_atpl t' s1). split.
      { apply update_ok. rewrite (encode_some _ _ (enc_title _ He)). cbn [bind]. rewrite Hadd. reflexivity. }
      cbn [set_atpl z_upl z_file z_alloc z_atpl z_etpl z_main]. rewrite <- T1.
      do 1 (split; [|auto 10]). destruct C1. constructor; cbn [set_atpl z_upl z_file z_alloc z_atpl z_etpl]; auto.
      intros j d Hj Hd. eapply Permutation_in in Hj; [|exact Pm]. destruct Hj as [ <- | Hj]; [|eauto].
      rewrite Hi in Hd. injection Hd as <-. auto.
  - exists s1. split; [reflexivity|]. rewrite T1. auto 10.
Qed.

(** *** finding and dropping the old titles *)
Definition is_position (o : option Z) (t : list Z) (i : Z) : Prop :=
  match o with Some k => get_by_pointer t i = Ok k | None => ~ In i t end.

(** [minus i t t']: [t'] is [t] without [i] *)
Definition minus (i : Z) (t t' : list Z) : Prop := ~ In i t' /\ (forall le L, lists le L t -> lists le L t') /\
  (forall j, In j t' <-> In j t /\ j <> i).

Lemma drop_minus : forall i k o le L, lists le L (pl_ptrs o) -> is_position (Some k) (pl_ptrs o) i -> pl_mutable o = true ->
  exists o', pl_remove_by_index k o = Ok o' /\ minus i (pl_ptrs o) (pl_ptrs o') /\ pl_mutable o' = true.
Proof.
  intros i k o le L Hl Hp Hm. destruct (drop_at o i k Hp Hm) as (a & b & o' & E & _ & Hr & E' & Hm').
  exists o'. split; [exact Hr|]. split; [|exact Hm']. rewrite E, E' in *. destruct (lists_drop _ _ _ _ _ Hl) as [_ Hn].
  split; [exact Hn|]. split.
  - intros le' L' H'. apply (lists_drop _ _ _ _ _ H').
  - intro j. rewrite !in_app_iff. cbn [In]. rewrite in_app_iff in Hn. split.
    + intro H. split; [tauto|]. intros ->. tauto.
    + intros [[H|[H|H]] Hj]; [tauto|congruence|tauto].
Qed.

Lemma minus_absent : forall i t, ~ In i t -> minus i t t.
Proof. intros i t H. split; [exact H|]. split; [auto|]. intro j. split; [|tauto]. intro Hj. split; [exact Hj|]. intros ->. tauto. Qed.

Lemma drop_etitle_ok : forall s k i L, (forall t, z_etpl s = Some t -> lists nstitle_le L (pl_ptrs t) /\ pl_mutable t = true /\ is_position k (pl_ptrs t) i) ->
  exists e', drop_etitle k s = (Ok tt, set_etpl e' s) /\ etpl_rel (minus i) (z_etpl s) e' /\
    (forall t, e' = Some t -> pl_mutable t = true).
Proof.
  intros s k i L H. unfold drop_etitle. destruct (z_etpl s) as [t|] eqn:Et.
  - destruct (H t eq_refl) as (Hl & Hm & Hp). destruct k as [k|].
    + destruct (drop_minus i k t _ L Hl Hp Hm) as (t' & Hr & Hmi & Hm'). exists (Some t'). split.
      * apply update_ok. rewrite Et, Hr. reflexivity.
      * split; [exact Hmi|]. intros x Hx. injection Hx as <-. exact Hm'.
    + exists (Some t). split; [unfold update; destruct s; cbn in *; subst; reflexivity|]. cbn [etpl_rel]. split; [apply minus_absent; exact Hp|].
      intros x Hx. injection Hx as <-. exact Hm.
  - exists None. split; [|split; [exact I|discriminate]]. unfold update. destruct k; rewrite ?Et; destruct s; cbn in *; subst; reflexivity.
Qed.

Lemma drop_atitle_ok : forall s k i L, lists title_le L (pl_ptrs (z_atpl s)) -> pl_mutable (z_atpl s) = true -> is_position k (pl_ptrs (z_atpl s)) i ->
  exists t', drop_atitle k s = (Ok tt, set_atpl t' s) /\ minus i (pl_ptrs (z_atpl s)) (pl_ptrs t') /\ pl_mutable t' = true.
Proof.
  intros s k i L Hl Hm Hp. unfold drop_atitle. destruct k as [k|].
  - destruct (drop_minus i k _ _ L Hl Hp Hm) as (t' & Hr & Hmi & Hm'). exists t'. split; [|auto].
    apply update_ok. rewrite Hr. reflexivity.
  - exists (z_atpl s). split; [unfold update; destruct s; reflexivity|]. split; [apply minus_absent; exact Hp|exact Hm].
Qed.

(** stage 1 *)
Lemma find_old_found : forall s cells i c w, core s cells -> znth cells i = Some c -> w_old_url w = full_url (snd c) ->
  (forall t, z_etpl s = Some t -> In i (pl_ptrs t)) ->
  exists et at_, find_old s w = Ok (Some (mkOld i (fst c) (span (snd c)) et at_)) /\
    (forall t, z_etpl s = Some t -> is_position et (pl_ptrs t) i) /\ is_position at_ (pl_ptrs (z_atpl s)) i.
Proof.
  intros s cells i c w C Hc Hu Hcov. unfold find_old. rewrite Hu, (url_index_found _ _ _ _ C Hc), (by_index_ok _ _ _ _ C Hc).
  cbn [bind]. pose proof (core_nth _ _ _ _ C Hc) as St. rewrite (stored_read _ _ _ St). cbn [bind]. destruct St as (_ & Hs & _).
  destruct (storable_span _ Hs) as [Hsz _]. rewrite Hsz. cbn [bind].
  pose proof (get_by_pointer_spec (pl_ptrs (z_atpl s)) i) as Ga.
  assert (Ea : exists at_, match get_by_pointer (pl_ptrs (z_atpl s)) i with
                | Ok k => Ok (Some k) | Err KeyError => Ok None | Err e => Err e end = Ok at_ /\ is_position at_ (pl_ptrs (z_atpl s)) i).
  { destruct (get_by_pointer (pl_ptrs (z_atpl s)) i) as [k|x] eqn:G.
    - exists (Some k). split; [reflexivity|exact G].
    - destruct Ga as [-> Ga]. exists None. split; [reflexivity|exact Ga]. }
  destruct Ea as (at_ & Ea & Pa).
  destruct (z_etpl s) as [t|] eqn:Et.
  - pose proof (get_by_pointer_spec (pl_ptrs t) i) as Gt. destruct (get_by_pointer (pl_ptrs t) i) as [k|x] eqn:G.
    + exists (Some k), at_. cbn [bind]. rewrite Ea. cbn [bind]. split; [reflexivity|]. split; [|exact Pa].
      intros t' Ht'. injection Ht' as <-. exact G.
    + destruct Gt as [_ Gt]. exfalso. apply Gt. apply Hcov. reflexivity.
  - exists None, at_. cbn [bind]. rewrite Ea. cbn [bind]. split; [reflexivity|]. split; [discriminate|exact Pa].
Qed.

Lemma find_old_new : forall s cells w b, core s cells -> utf8_encode (w_old_url w) = Some b ->
  (forall c, In c cells -> full_url (snd c) <> w_old_url w) -> find_old s w = Ok None.
Proof. intros s cells w b C Hb Hn. unfold find_old. rewrite (url_index_missing _ _ _ _ C Hb Hn). reflexivity. Qed.

(** the article flag of an unmodified entry object *)
Lemma is_article_found : forall s cells i c w, core s cells -> znth cells i = Some c -> w_old_url w = full_url (snd c) ->
  w_force w = None -> e_ns (w_entry w) = e_ns (snd c) ->
  exists a, is_article s w = Ok a /\ (a = true <-> In i (pl_ptrs (z_atpl s))).
Proof.
  intros s cells i c w C Hc Hu Hf Hns. unfold is_article. rewrite Hf, Hns.
  assert (HzL : znth (map snd cells) i = Some (snd c)) by (rewrite znth_map, Hc; reflexivity).
  destruct (ueqb (e_ns (snd c)) NS_C) eqn:E; cbn [negb].
  - apply ueqb_eq in E. unfold entry_at_url_is_article. rewrite Hu.
    assert (IC : in_C (full_url (snd c)) = true) by (unfold full_url; rewrite E; reflexivity). rewrite IC. cbn [negb].
    rewrite (url_index_found _ _ _ _ C Hc). pose proof (get_by_pointer_spec (pl_ptrs (z_atpl s)) i) as G.
    destruct (get_by_pointer (pl_ptrs (z_atpl s)) i) as [k|x].
    + exists true. split; [reflexivity|]. split; [|reflexivity]. intros _. destruct G as [G _]. eapply znth_in; eauto.
    + destruct G as [-> G]. exists false. split; [reflexivity|]. split; [discriminate|contradiction].
  - apply ueqb_neq in E. exists false. split; [reflexivity|]. split; [discriminate|].
    intro Hin. exfalso. apply E. eapply (co_articles _ _ C); eauto.
Qed.

(** *** core after changing the contents of one cell *)
Lemma znth_mid : forall {A} (a b : list A) x, znth (a ++ x :: b) (zlen a) = Some x.
Proof. intros. rewrite znth_app_r by lia. rewrite Z.sub_diag. apply znth_cons_0. Qed.

Lemma znth_mid_other : forall {A} (a b : list A) x y i, i <> zlen a -> znth (a ++ x :: b) i = znth (a ++ y :: b) i.
Proof.
  intros A a b x y i H. destruct (Z.lt_ge_cases i (zlen a)) as [L|L].
  - rewrite !znth_app_l by lia. reflexivity.
  - rewrite !znth_app_r by lia. change (x :: b) with ([x] ++ b). change (y :: b) with ([y] ++ b).
    rewrite !znth_app_r by (rewrite zlen_cons, zlen_nil; lia). reflexivity.
Qed.

Lemma map_mid : forall {A B} (f : A -> B) a x b, map f (a ++ x :: b) = map f a ++ f x :: map f b.
Proof. intros. rewrite map_app. reflexivity. Qed.

Lemma apart_sym : forall c d, apart c d -> apart d c.
Proof. intros c d H x [H1 H2]. apply (H x); auto. Qed.

Lemma apart_mid : forall A c B, StronglySorted apart (A ++ c :: B) -> forall d, In d A \/ In d B -> apart c d.
Proof.
  intros A c B S d H. apply ssorted_app in S as (_ & S2 & S3). apply ssorted_cons in S2 as [_ S2]. rewrite Forall_forall in S2.
  destruct H as [H|H]; [apply apart_sym, S3; [exact H|left; reflexivity]|apply S2; exact H].
Qed.

Lemma apart_replace : forall A c c' B, StronglySorted apart (A ++ c :: B) -> (forall x, occupies c' x -> occupies c x) ->
  StronglySorted apart (A ++ c' :: B).
Proof.
  intros A c c' B S H. pose proof (apart_mid _ _ _ S) as M. apply ssorted_app in S as (S1 & S2 & S3). apply ssorted_cons in S2 as [S2 S2'].
  apply ssorted_app. split; [exact S1|]. split.
  - apply ssorted_cons. split; [exact S2|]. rewrite Forall_forall. intros d Hd x [H1 H2]. apply (M d (or_intror Hd) x). auto.
  - intros d y Hd [ <- | Hy]; [|apply S3; [exact Hd|right; exact Hy]]. apply apart_sym. intros x [H1 H2]. apply (M d (or_introl Hd) x). auto.
Qed.

Lemma Forall_mid : forall {A} (P : A -> Prop) a x b, Forall P (a ++ x :: b) <-> Forall P a /\ P x /\ Forall P b.
Proof.
  intros. rewrite Forall_app. split.
  - intros [H1 H2]. inversion H2; subst. auto.
  - intros (H1 & H2 & H3). auto.
Qed.

(** stored cells survive a write that only touches the bytes of one cell *)
Lemma stored_others : forall f g A c B, Forall (fun c => stored f (fst c) (snd c)) (A ++ c :: B) -> StronglySorted apart (A ++ c :: B) ->
  keeps f g (fun x => ~ occupies c x) ->
  Forall (fun c => stored g (fst c) (snd c)) A /\ Forall (fun c => stored g (fst c) (snd c)) B.
Proof.
  intros f g A c B F S K. pose proof (apart_mid _ _ _ S) as M. apply Forall_mid in F as (FA & _ & FB).
  rewrite Forall_forall in FA, FB. split; rewrite Forall_forall; intros d Hd.
  - eapply stored_keeps; [apply FA; exact Hd|]. eapply keeps_weaken; [exact K|]. intros x Hx Hc.
    apply (M d (or_introl Hd) x). split; [exact Hc|]. destruct d; exact Hx.
  - eapply stored_keeps; [apply FB; exact Hd|]. eapply keeps_weaken; [exact K|]. intros x Hx Hc.
    apply (M d (or_intror Hd) x). split; [exact Hc|]. destruct d; exact Hx.
Qed.

Lemma stored_fwrite : forall f p e b, 0 <= p -> entry_storable e -> kind_consistent e -> entry_to_bytes e = Ok b ->
  stored (fwrite f p b) p e.
Proof.
  intros f p e b Hp Hs Hk Hb. split; [exact Hp|]. split; [exact Hs|]. split; [exact Hk|]. exists b. split; [exact Hb|].
  apply fread_fwrite_same. exact Hp.
Qed.

Lemma url_sorted_replace : forall (A : list (Z * entry)) c c' B, StronglySorted url_lt (map snd (A ++ c :: B)) -> full_url (snd c') = full_url (snd c) ->
  StronglySorted url_lt (map snd (A ++ c' :: B)).
Proof.
  intros A c c' B S E. rewrite map_mid in *. apply ssorted_app in S as (S1 & S2 & S3). apply ssorted_cons in S2 as [S2 S2'].
  apply ssorted_app. split; [exact S1|]. split.
  - apply ssorted_cons. split; [exact S2|]. eapply Forall_impl; [|exact S2']. intros d Hd. unfold url_lt in *. rewrite E. exact Hd.
  - intros x y Hx [ <- | Hy]; [|apply S3; [exact Hx|right; exact Hy]]. specialize (S3 x (snd c) Hx (or_introl eq_refl)).
    unfold url_lt in *. rewrite E. exact S3.
Qed.

(** [write_entry] of an existing entry whose url and size are unchanged. *)
Lemma write_in_place : forall rec upd s A p e0 B w a,
  let i := zlen A in let e := w_entry w in
  core s (A ++ (p, e0) :: B) -> w_old_url w = full_url e0 -> full_url e = full_url e0 ->
  entry_storable e -> kind_consistent e -> span e = span e0 ->
  is_article s w = Ok a -> (a = true -> e_ns e = NS_C) ->
  (forall t, z_etpl s = Some t -> In i (pl_ptrs t)) ->
  (forall r, e_kind e = Redirect r -> 0 <= r < zlen (A ++ (p, e0) :: B)) ->
  exists s', write_body rec w upd true s = (Ok tt, s') /\ core s' (A ++ (p, e) :: B) /\
    z_upl s' = z_upl s /\ z_main s' = z_main s /\ z_alloc s' = z_alloc s /\
    keeps (z_file s) (z_file s') (fun x => ~ occupies (p, e0) x) /\ zlen (z_file s') = zlen (z_file s) /\
    etpl_rel (fun t t' => Permutation t' t) (z_etpl s) (z_etpl s') /\
    (forall j, In j (pl_ptrs (z_atpl s')) <-> (j = i /\ a = true) \/ (j <> i /\ In j (pl_ptrs (z_atpl s)))).
Proof.
  intros rec upd s A p e0 B w a i e C Hou Hu Hs Hk Hsp Har HaC Hcov Htgt.
  set (cells := A ++ (p, e0) :: B) in *.
  assert (Hz : znth cells i = Some (p, e0)) by apply znth_mid.
  destruct (find_old_found s cells i (p, e0) w C Hz Hou Hcov) as (et & at_ & Hfo & Pe & Pa). cbn [fst snd] in Hfo.
  destruct (storable_span e Hs) as [Hsz Hpos]. destruct (entry_size_storable e Hs) as (b & Hb & _).
  pose proof (core_nth _ _ _ _ C Hz) as St. cbn [fst snd] in St. pose proof St as (Hp0 & Hs0 & _ & b0 & Hb0 & Hf0).
  assert (Lb : zlen b = zlen b0) by (rewrite <- (span_ok _ _ Hb), <- (span_ok _ _ Hb0); exact Hsp).
  (* the file after stage 2 *)
  set (f1 := fwrite (z_file s) p b).
  assert (K1 : keeps (z_file s) f1 (fun x => ~ occupies (p, e0) x)).
  { eapply keeps_weaken; [apply keeps_fwrite; exact Hp0|]. intros x Hx Hc. apply Hx. unfold occupies. cbn [fst snd].
    rewrite (span_ok _ _ Hb0), <- Lb. exact Hc. }
  assert (Lf : zlen f1 = zlen (z_file s)).
  { unfold f1. rewrite fwrite_len by exact Hp0. rewrite <- (span_ok _ _ Hb), Hsp in *. rewrite (span_ok _ _ Hb0) in *.
    pose proof (fread_full _ _ _ Hp0 Hf0 Hpos). lia. }
  set (cells' := A ++ (p, e) :: B).
  (* dropping the old titles *)
  destruct (drop_etitle_ok (set_file f1 s) et i (map snd cells)) as (et' & De & Re & Me).
  { intros t Ht. cbn [set_file z_etpl] in Ht. split; [apply (co_etpl _ _ C); exact Ht|]. split; [apply (co_mut_e _ _ C); exact Ht|apply Pe; exact Ht]. }
  cbn [set_file z_etpl] in Re.
  destruct (drop_atitle_ok (set_etpl et' (set_file f1 s)) at_ i (map snd cells)) as (at' & Da & Ra & Ma).
  { apply (co_atpl _ _ C). } { apply (co_mut_a _ _ C). } { exact Pa. }
  cbn [set_file set_etpl z_atpl] in Ra.
  set (s3 := set_atpl at' (set_etpl et' (set_file f1 s))) in *.
  assert (Lext : forall j, j <> i -> znth (map snd cells') j = znth (map snd cells) j).
  { intros j Hj. unfold cells', cells. rewrite !map_mid. apply znth_mid_other. rewrite zlen_map. exact Hj. }
  assert (C3 : core s3 cells').
  { constructor; cbn [s3 set_atpl set_etpl set_file z_file z_upl z_alloc z_atpl z_etpl].
    - rewrite (co_locs _ _ C). unfold cells, cells'. rewrite !map_mid. reflexivity.
    - destruct (stored_others _ _ _ _ _ (co_stored _ _ C) (co_apart _ _ C) K1) as [FA FB].
      apply Forall_mid. split; [exact FA|]. split; [|exact FB]. cbn [fst snd]. apply stored_fwrite; assumption.
    - pose proof (co_used _ _ C) as F. apply Forall_mid in F as (F1 & F2 & F3). apply Forall_mid. split; [exact F1|]. split; [|exact F3].
      intros x Hx. apply F2. unfold occupies in *. cbn [fst snd] in *. rewrite <- Hsp. exact Hx.
    - eapply apart_replace; [apply (co_apart _ _ C)|]. intros x Hx. unfold occupies in *. cbn [fst snd] in *. rewrite <- Hsp. exact Hx.
    - apply (co_canonical _ _ C).
    - apply (co_end _ _ C).
    - eapply url_sorted_replace; [apply (co_sorted _ _ C)|]. exact Hu.
    - destruct Ra as (Rn & Rl & Ri). eapply lists_ext; [|apply Rl; apply (co_atpl _ _ C)]. intros j Hj. apply Lext. intros ->. tauto.
    - intros j d Hj Hd. destruct Ra as (Rn & Rl & Ri). apply Ri in Hj as [Hj Hne]. rewrite Lext in Hd by exact Hne. eapply (co_articles _ _ C); eauto.
    - intros t Ht. destruct (z_etpl s) as [t0|] eqn:E0; rewrite Ht in Re; cbn [etpl_rel] in Re; [|contradiction].
      destruct Re as (Rn & Rl & Ri). eapply lists_ext; [|apply Rl; apply (co_etpl _ _ C); exact E0]. intros j Hj. apply Lext. intros ->. tauto.
    - apply (co_mut_u _ _ C).
    - exact Ma.
    - exact Me. }
  assert (Hz' : znth (map snd cells') i = Some e).
  { unfold cells'. rewrite map_mid. unfold i. rewrite <- (zlen_map (@snd Z entry) A). apply znth_mid. }
  destruct (add_titles_ok s3 cells' i e a C3 Hz') as (s4 & Ad & C4 & U4 & M4 & A4 & F4 & R4 & P4).
  { intros t Ht. cbn [s3 set_atpl set_etpl z_etpl] in Ht. rewrite Ht in Re. destruct (z_etpl s); [apply Re|contradiction]. }
  { apply Ra. } { exact HaC. }
  exists s4. split; [|split; [exact C4|]].
  - unfold write_body. fold e.
    rewrite (mbind_ok _ _ _ a s) by (apply query_ok; exact Har).
    rewrite (mbind_ok _ _ _ (span e) s) by (apply query_ok; exact Hsz).
    rewrite (mbind_ok _ _ _ (Some (mkOld i p (span e0) et at_)) s) by (apply query_ok; exact Hfo).
    cbv beta iota zeta. cbn [o_index o_offset o_size o_etitle o_atitle option_map].
    assert (Q1 : negb (span e0 =? span e) = false) by lia. rewrite Q1.
    assert (Q2 : negb (ueqb (w_old_url w) (full_url e)) = false).
    { rewrite Hou, Hu, ueqb_refl. reflexivity. } rewrite Q2.
    rewrite andb_false_r. cbn [orb].
    rewrite (mbind_ok _ _ _ [] s) by reflexivity.
    rewrite (mbind_ok _ _ _ tt s) by reflexivity.
    rewrite (mbind_ok _ _ _ p s) by reflexivity.
    rewrite (mbind_ok _ _ _ tt (set_file f1 s)) by (unfold write_at; apply update_ok; rewrite Hb; reflexivity).
    rewrite (mbind_ok _ _ _ tt (set_etpl et' (set_file f1 s))) by exact De.
    rewrite (mbind_ok _ _ _ tt s3) by exact Da.
    rewrite (mbind_ok _ _ _ tt s3) by reflexivity.
    rewrite (mbind_ok _ _ _ (i, e) s3) by reflexivity.
    rewrite (mbind_ok _ _ _ tt s4) by exact Ad.
    cbn [opt_eqb]. rewrite Z.eqb_refl.
    rewrite (mbind_ok _ _ _ tt s4) by reflexivity.
    destruct (is_redirect e) eqn:Er; [|reflexivity].
    assert (exists r, e_kind e = Redirect r) as [r Hr].
    { unfold kind_consistent, is_redirect, MIMETYPE_ID_REDIRECT in *. destruct (e_kind e); [lia|eauto]. }
    assert (Hrr : 0 <= r < zlen cells').
    { unfold cells'. rewrite zlen_app, zlen_cons. specialize (Htgt r Hr). unfold cells in Htgt. rewrite zlen_app, zlen_cons in Htgt. lia. }
    destruct (znth_ex cells' r Hrr) as [d Hd].
    rewrite (mbind_ok _ _ _ (snd d) s4); [reflexivity|]. apply query_ok. unfold follow. rewrite Hr. eapply entry_by_index; eauto.
  - rewrite U4, M4, A4, F4. cbn [s3 set_atpl set_etpl set_file z_file z_upl z_alloc z_main].
    do 3 (split; [reflexivity|]). split; [exact K1|]. split; [exact Lf|]. split.
    + cbn [s3 set_atpl set_etpl z_etpl] in R4. destruct (z_etpl s) as [t0|] eqn:E0; destruct et' as [t1|]; cbn [etpl_rel] in Re; try contradiction;
        destruct (z_etpl s4) as [t4|] eqn:E4; cbn [etpl_rel] in R4; try contradiction; cbn [etpl_rel]; [|exact I].
      assert (N4 : NoDup (pl_ptrs t4)) by (apply (co_etpl _ _ C4); exact E4).
      assert (N0 : NoDup (pl_ptrs t0)) by (apply (co_etpl _ _ C); exact E0).
      apply NoDup_Permutation; [exact N4|exact N0|]. intro j. destruct Re as (Rn & Rl & Ri). split.
      * intro Hj. eapply Permutation_in in Hj; [|exact R4]. destruct Hj as [ <- | Hj]; [apply Hcov; reflexivity|apply Ri in Hj; tauto].
      * intro Hj. eapply Permutation_in; [symmetry; exact R4|]. destruct (Z.eq_dec j i) as [->|Hne]; [left; reflexivity|right; apply Ri; auto].
    + intro j. cbn [s3 set_atpl z_atpl] in P4. destruct Ra as (Rn & Rl & Ri). split.
      * intro Hj. eapply Permutation_in in Hj; [|exact P4]. destruct a.
        -- destruct Hj as [ <- | Hj]; [left; auto|right]. apply Ri in Hj. tauto.
        -- right. apply Ri in Hj. tauto.
      * intro Hj. eapply Permutation_in; [symmetry; exact P4|]. destruct a.
        -- destruct Hj as [[ -> _]|[Hne Hj]]; [left; reflexivity|right; apply Ri; auto].
        -- destruct Hj as [[_ X]|[Hne Hj]]; [discriminate|]. apply Ri. auto.
Qed.

(** *** renumbering redirects *)
Definition touched (start : Z) (skip : list ustr) (e : entry) : bool :=
  is_redirect e && negb (umem (full_url e) skip) && match e_kind e with Redirect r => start <=? r | Content _ _ => false end.
Definition shift_entry (start diff : Z) (skip : list ustr) (e : entry) : entry :=
  if touched start skip e then match e_kind e with Redirect r => with_redirect_index e (r + diff) | Content _ _ => e end else e.
Definition shift_cell start diff skip (c : Z * entry) : Z * entry := (fst c, shift_entry start diff skip (snd c)).
(** the spurious assertion: the new index equals the location of the redirect *)
Definition clashes (start diff : Z) (skip : list ustr) (c : Z * entry) : Prop :=
  touched start skip (snd c) = true /\ e_kind (shift_entry start diff skip (snd c)) = Redirect (fst c).

Lemma wri_storable : forall e r v, entry_storable e -> e_kind e = Redirect r -> 0 <= v < 2 ^ 32 -> entry_storable (with_redirect_index e v).
Proof.
  intros e r v (H1 & H2 & H3 & H4 & H5) Hk Hv. unfold entry_storable, with_redirect_index. cbn.
  change (2 ^ 32) with 4294967296 in Hv. auto.
Qed.
Lemma wri_consistent : forall e r v, kind_consistent e -> e_kind e = Redirect r -> kind_consistent (with_redirect_index e v).
Proof. intros e r v H Hk. unfold kind_consistent in *. rewrite Hk in H. exact H. Qed.
Lemma wri_span : forall e r v, entry_storable e -> e_kind e = Redirect r -> 0 <= v < 2 ^ 32 -> span (with_redirect_index e v) = span e.
Proof.
  intros e r v Hs Hk Hv. destruct (storable_span _ (wri_storable e r v Hs Hk Hv)) as [H1 _]. destruct (storable_span e Hs) as [H2 _].
  unfold entry_disk_size, with_redirect_index in *. cbn [e_url e_title e_kind] in H1. rewrite Hk in H2. rewrite H1 in H2. injection H2 as H2. exact H2.
Qed.
Lemma shift_full_url : forall start diff skip e, full_url (shift_entry start diff skip e) = full_url e.
Proof. intros. unfold shift_entry. destruct (touched start skip e); [|reflexivity]. destruct (e_kind e); reflexivity. Qed.

Lemma for_entries_S : forall n i body s, for_entries (S n) i body s =
  mbind (query (fun s => do p <- get_by_index (pl_ptrs (z_upl s)) i ;; get_entry_at s p))
    (fun e => mbind (body e) (fun _ => for_entries n (i + 1) body)) s.
Proof. reflexivity. Qed.

Lemma etpl_rel_trans : forall a b c, etpl_rel (fun t t' => Permutation t' t) a b -> etpl_rel (fun t t' => Permutation t' t) b c ->
  etpl_rel (fun t t' => Permutation t' t) a c.
Proof.
  intros [a|] [b|] [c|]; cbn [etpl_rel]; try tauto. intros H1 H2. eapply Permutation_trans; eauto.
Qed.
Lemma etpl_rel_refl : forall a, etpl_rel (fun t t' => Permutation t' t) a a.
Proof. intros [a|]; cbn [etpl_rel]; [apply Permutation_refl|exact I]. Qed.

Section Loop.
Variables (rec : went -> bool -> M zim unit) (wr : went -> M zim unit) (start diff : Z) (skip : list ustr) (X : list Z) (n : Z).
Hypothesis Hwr : forall w, wr w = write_body rec w true true.
Hypothesis Hn : n < 2 ^ 32.

Definition covered (s : zim) : Prop := forall t, z_etpl s = Some t -> forall j, 0 <= j < n -> ~ In j X -> In j (pl_ptrs t).
Definition in_bounds (c : Z * entry) : Prop :=
  forall r, touched start skip (snd c) = true -> e_kind (snd c) = Redirect r -> 0 <= r + diff < n.

Lemma loop_ok : forall B s A, core s (A ++ B) -> zlen (A ++ B) = n -> covered s ->
  (forall j c, znth (A ++ B) j = Some c -> In j X -> umem (full_url (snd c)) skip = true) ->
  Forall in_bounds B ->
  (exists s', for_entries (length B) (zlen A) (update_redirect wr start diff skip) s = (Ok tt, s') /\
     core s' (A ++ map (shift_cell start diff skip) B) /\
     z_upl s' = z_upl s /\ z_main s' = z_main s /\ z_alloc s' = z_alloc s /\
     keeps (z_file s) (z_file s') (fun x => forall c, In c B -> touched start skip (snd c) = true -> ~ occupies c x) /\ zlen (z_file s') = zlen (z_file s) /\
     etpl_rel (fun t t' => Permutation t' t) (z_etpl s) (z_etpl s') /\
     (forall j, In j (pl_ptrs (z_atpl s')) <-> In j (pl_ptrs (z_atpl s))) /\
     Forall (fun c => ~ clashes start diff skip c) B) \/
  (exists s' c, In c B /\ clashes start diff skip c /\
     for_entries (length B) (zlen A) (update_redirect wr start diff skip) s = (Err AssertionError, s')).
Proof.
  induction B as [|c B IH]; intros s A C Ln Cov Hex Hb.
  - left. exists s. cbn [length for_entries map]. split; [reflexivity|]. split; [exact C|].
    do 3 (split; [reflexivity|]). split; [apply keeps_refl|]. split; [reflexivity|]. split; [apply etpl_rel_refl|].
    split; [tauto|constructor].
  - inversion Hb as [|? ? Hbc HbB]; subst.
    assert (Hz : znth (A ++ c :: B) (zlen A) = Some c) by apply znth_mid.
    cbn [length]. rewrite for_entries_S.
    assert (Hq : query (fun s => do p <- get_by_index (pl_ptrs (z_upl s)) (zlen A) ;; get_entry_at s p) s = (Ok (snd c), s)).
    { apply query_ok. rewrite (by_index_ok _ _ _ _ C Hz). cbn [bind]. apply stored_read. eapply core_nth; eauto. }
    rewrite (mbind_ok _ _ _ _ _ Hq).
    assert (EA : forall d, A ++ d :: B = (A ++ [d]) ++ B) by (intro; rewrite <- app_assoc; reflexivity).
    assert (LA : forall d : Z * entry, zlen (A ++ [d]) = zlen A + 1) by (intro; rewrite zlen_app; reflexivity).
    destruct (touched start skip (snd c)) eqn:T.
    + pose proof T as T'. unfold touched in T'. apply andb_prop in T' as [T1 T2]. apply andb_prop in T1 as [T0 T1].
      destruct (e_kind (snd c)) as [?|r] eqn:Ek; [discriminate|].
      destruct (core_nth _ _ _ _ C Hz) as (Hp & Hs & Hkc & _).
      pose proof (Hbc r T Ek) as Hr.
      set (e' := with_redirect_index (snd c) (r + diff)).
      assert (Sh : shift_entry start diff skip (snd c) = e') by (unfold shift_entry; rewrite T, Ek; reflexivity).
      assert (Hbody : update_redirect wr start diff skip (snd c) s =
                (if r + diff =? fst c then raise AssertionError else wr (fresh e')) s).
      { unfold update_redirect. rewrite T0, T1. cbn [andb]. rewrite Ek, T2.
        rewrite (mbind_ok _ _ _ e' s).
        2: { apply query_ok. unfold set_redirect_index. replace (r + diff <? 0) with false by lia. reflexivity. }
        rewrite (mbind_ok _ _ _ (fst c) s); [reflexivity|]. apply query_ok.
        replace (full_url e') with (full_url (snd c)) by reflexivity. eapply url_pointer_found; eauto. }
      destruct (r + diff =? fst c) eqn:Eq.
      * right. exists s, c. split; [left; reflexivity|]. split.
        -- split; [exact T|]. rewrite Sh. cbn. f_equal. lia.
        -- erewrite mbind_err; [reflexivity|]. rewrite Hbody. reflexivity.
      * destruct c as [p e0]. cbn [fst snd] in *.
        assert (Hv : 0 <= r + diff < 2 ^ 32) by lia.
        destruct (is_article_found s _ (zlen A) (p, e0) (fresh e') C Hz) as (a & Ha & Hai); try reflexivity.
        assert (HcovA : forall t, z_etpl s = Some t -> In (zlen A) (pl_ptrs t)).
        { intros t Ht. apply (Cov t Ht); [apply znth_some in Hz; lia|]. intro HX. specialize (Hex _ _ Hz HX). cbn [snd] in Hex. rewrite Hex in T1. discriminate. }
        destruct (write_in_place rec true s A p e0 B (fresh e') a) as (s1 & W1 & C1 & U1 & M1 & A1 & K1 & L1 & R1 & I1); try assumption; try reflexivity.
        { cbn [fresh w_entry]. eapply wri_storable; eauto. }
        { cbn [fresh w_entry]. eapply wri_consistent; eauto. }
        { cbn [fresh w_entry]. eapply wri_span; eauto. }
        { cbn [fresh w_entry]. intro At. apply Hai in At. unfold e'; cbn. eapply (co_articles _ _ C); [exact At|].
          rewrite znth_map, Hz. reflexivity. }
        { cbn [fresh w_entry]. intros r' Hr'. unfold e' in Hr'. cbn in Hr'. injection Hr' as <-. lia. }
        rewrite <- Hwr in W1. cbn [fresh w_entry] in C1.
        rewrite (mbind_ok _ _ _ tt s1) by (rewrite Hbody; exact W1).
        rewrite EA in C1. rewrite <- (LA (p, e')).
        assert (Iat : forall j, In j (pl_ptrs (z_atpl s1)) <-> In j (pl_ptrs (z_atpl s))).
        { intro j. rewrite I1. split.
          - intros [[ -> X1]|[_ H]]; [apply Hai; exact X1|exact H].
          - intro H. destruct (Z.eq_dec j (zlen A)) as [->|]; [left; split; [reflexivity|apply Hai; exact H]|right; auto]. }
        destruct (IH s1 (A ++ [(p, e')]) C1) as [(s2 & F2 & C2 & U2 & M2 & A2 & K2 & L2 & R2 & I2 & N2)|(s2 & d & Hd & Hcl & F2)].
        { rewrite <- EA. rewrite zlen_app, zlen_cons in *. lia. }
        { intros t Ht j Hj HX. destruct (z_etpl s) as [t0|] eqn:E0; rewrite Ht in R1; cbn [etpl_rel] in R1; [|contradiction].
          eapply Permutation_in; [symmetry; exact R1|]. apply (Cov t0 E0); assumption. }
        { intros j d Hj HX. rewrite <- EA in Hj. destruct (Z.eq_dec j (zlen A)) as [->|Hne].
          - rewrite znth_mid in Hj. injection Hj as <-. exact (Hex _ _ Hz HX).
          - rewrite (znth_mid_other A B (p, e') (p, e0)) in Hj by exact Hne. eauto. }
        { exact HbB. }
        { left. exists s2. split; [exact F2|]. split.
          { cbn [map]. unfold shift_cell at 1. cbn [fst snd]. rewrite Sh. rewrite <- app_assoc in C2. exact C2. }
          split; [congruence|]. split; [congruence|]. split; [congruence|]. split.
          { eapply keeps_weaken; [eapply keeps_trans; [exact K1|exact K2|lia]|]. cbv beta. intros x Hx. split.
            - apply Hx; [left; reflexivity|exact T].
            - intros d Hd. apply Hx. right. exact Hd. }
          split; [congruence|]. split; [eapply etpl_rel_trans; eauto|]. split; [intro j; rewrite I2; apply Iat|].
          constructor; [|exact N2]. intros [_ Cl]. cbn [fst snd] in Cl. rewrite Sh in Cl. cbn in Cl. injection Cl as Cl. lia. }
        { right. exists s2, d. split; [right; exact Hd|]. auto. }
    + assert (Sh : shift_cell start diff skip c = c).
      { unfold shift_cell, shift_entry. rewrite T. destruct c; reflexivity. }
      assert (Hbody : update_redirect wr start diff skip (snd c) s = (Ok tt, s)).
      { unfold update_redirect. unfold touched in T. destruct (is_redirect (snd c)) eqn:Er; [|reflexivity].
        destruct (negb (umem (full_url (snd c)) skip)); [|reflexivity]. cbn [andb] in *.
        destruct (core_nth _ _ _ _ C Hz) as (_ & _ & Hkc & _).
        destruct (e_kind (snd c)) as [?|r] eqn:Ek; [|rewrite T; reflexivity].
        unfold kind_consistent, is_redirect, MIMETYPE_ID_REDIRECT in *. rewrite Ek in Hkc. lia. }
      rewrite (mbind_ok _ _ _ _ _ Hbody). rewrite <- (LA c). rewrite EA in C.
      destruct (IH s (A ++ [c]) C) as [(s2 & F2 & C2 & U2 & M2 & A2 & K2 & L2 & R2 & I2 & N2)|(s2 & d & Hd & Hcl & F2)]; auto.
      { rewrite <- EA. exact Ln. }
      { rewrite <- EA. exact Hex. }
      { left. exists s2. split; [exact F2|]. cbn [map]. rewrite Sh. rewrite <- app_assoc in C2. split; [exact C2|]. do 3 (split; [assumption|]). split.
        { eapply keeps_weaken; [exact K2|]. intros x Hx d Hd. apply Hx. right. exact Hd. }
        split; [assumption|]. split; [assumption|]. split; [assumption|]. constructor; [|exact N2]. intros [Tc _]. congruence. }
      { right. exists s2, d. split; [right; exact Hd|]. auto. }
Qed.
End Loop.

(** *** [_update_url_pointers] *)
Definition shift_ptr (start diff j : Z) : Z := if start <=? j then j + diff else j.
Definition shift_pl (start diff : Z) (t : plist) : plist :=
  mkPlist (map (shift_ptr start diff) (pl_ptrs t))
          (if existsb (in_range (Some start) None) (pl_ptrs t) then true else pl_dirty t) (pl_mutable t) (pl_old_size t).

Lemma mass_shift : forall start diff t, pl_mass_update diff (Some start) None t = Ok (shift_pl start diff t).
Proof.
  intros start diff t. unfold pl_mass_update. rewrite mass_loop_spec. f_equal. unfold shift_pl. f_equal.
  apply map_ext. intro j. unfold in_range, shift_ptr. cbn [negb andb]. rewrite Z.ltb_antisym, negb_involutive, andb_true_r. reflexivity.
Qed.

Definition shift_lists (start diff : Z) (edit : bool) (s : zim) : zim :=
  let s1 := match z_etpl s with None => s | Some t => set_etpl (Some (shift_pl start diff t)) s end in
  if edit then set_atpl (shift_pl start diff (z_atpl s1)) s1 else s1.
Definition shift_main (start diff : Z) (m : option Z) : option Z :=
  match m with Some m => Some (if start <? m then m + diff else m) | None => None end.

Lemma core_set_main : forall s cells m, core s cells -> core (set_main m s) cells.
Proof. intros s cells m []. constructor; assumption. Qed.

Lemma uup_ok : forall rec wr start diff edit skip X n s1 cells,
  (forall w, wr w = write_body rec w true true) -> n < 2 ^ 32 ->
  let s2 := shift_lists start diff edit s1 in
  core s2 cells -> zlen cells = n -> covered X n s2 ->
  (forall j c, znth cells j = Some c -> In j X -> umem (full_url (snd c)) skip = true) ->
  Forall (in_bounds start diff skip n) cells ->
  (exists s', update_url_pointers wr start diff edit skip s1 = (Ok tt, s') /\
     core s' (map (shift_cell start diff skip) cells) /\
     z_upl s' = z_upl s1 /\ z_main s' = shift_main start diff (z_main s1) /\ z_alloc s' = z_alloc s1 /\
     keeps (z_file s1) (z_file s') (fun x => forall c, In c cells -> touched start skip (snd c) = true -> ~ occupies c x) /\ zlen (z_file s') = zlen (z_file s1) /\
     etpl_rel (fun t t' => Permutation t' t) (z_etpl s2) (z_etpl s') /\
     (forall j, In j (pl_ptrs (z_atpl s')) <-> In j (pl_ptrs (z_atpl s2))) /\
     Forall (fun c => ~ clashes start diff skip c) cells) \/
  (exists s' c, In c cells /\ clashes start diff skip c /\
     update_url_pointers wr start diff edit skip s1 = (Err AssertionError, s')).
Proof.
  intros rec wr start diff edit skip X n s1 cells Hwr Hn s2 C Ln Cov Hex Hb.
  unfold update_url_pointers.
  set (sa := match z_etpl s1 with None => s1 | Some t => set_etpl (Some (shift_pl start diff t)) s1 end).
  assert (H1 : shift_etpl diff start s1 = (Ok tt, sa)).
  { unfold shift_etpl, sa. apply update_ok. destruct (z_etpl s1); [rewrite mass_shift|]; reflexivity. }
  rewrite (mbind_ok _ _ _ _ _ H1).
  assert (H2 : (if edit then shift_atpl diff start else ret tt) sa = (Ok tt, s2)).
  { unfold s2, shift_lists. fold sa. destruct edit; [|reflexivity]. unfold shift_atpl. apply update_ok. rewrite mass_shift. reflexivity. }
  rewrite (mbind_ok _ _ _ _ _ H2).
  assert (Eu : z_upl s2 = z_upl s1 /\ z_main s2 = z_main s1 /\ z_alloc s2 = z_alloc s1 /\ z_file s2 = z_file s1).
  { unfold s2, shift_lists. fold sa. unfold sa. destruct edit, (z_etpl s1); repeat split. }
  destruct Eu as (Eu & Em & Ea & Ef).
  rewrite (mbind_ok _ _ _ n s2).
  2: { apply query_ok. rewrite (co_locs _ _ C), zlen_map, Ln. reflexivity. }
  replace (Z.to_nat n) with (length cells) by (rewrite <- Ln; unfold zlen; lia).
  destruct (loop_ok rec wr start diff skip X n Hwr Hn cells s2 [] C Ln Cov Hex Hb)
    as [(s3 & F & C3 & U & Mn & Al & K & Le & R & I & N)|(s3 & c & Hc & Hcl & F)].
  - left. rewrite (mbind_ok _ _ _ _ _ F).
    exists (set_main (shift_main start diff (z_main s1)) s3). split.
    { apply update_ok. rewrite Mn, Em. assert (Hm3 : z_main s3 = z_main s1) by congruence.
      assert (Hid : set_main (z_main s1) s3 = s3) by (rewrite <- Hm3; destruct s3; reflexivity).
      destruct (z_main s1) as [m|]; cbn [shift_main]; [destruct (start <? m)|]; congruence. }
    split; [apply core_set_main; exact C3|]. cbn. split; [congruence|]. split; [reflexivity|]. split; [congruence|].
    rewrite <- Ef. split; [exact K|]. split; [exact Le|]. auto.
  - right. exists s3, c. split; [exact Hc|]. split; [exact Hcl|]. erewrite mbind_err; [reflexivity|exact F].
Qed.
