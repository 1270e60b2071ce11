(** What C73 says: the page MCounter of a flushed archive gives, for every
    mimetype, the number of pages in namespace C with that mimetype. *)
From Coq Require Import List ZArith Bool.
From Verif Require Import Base Utf8 Infobyte MimeTypeList PointerList Entry Reader Cluster ClusterWrapper ClusterWrapperSpec Counter CounterSpec
  Archive ArchiveSpec ArchiveCluster ArchiveClusterSpec CompressionStrategy CompressionStrategySpec OperationBuffer Flush FlushSpec FlushHistorySpec ViewSpec CountedArchive.
Import ListNotations.
Open Scope Z_scope.

(** Exactly [k] urls satisfy [P]. *)
Definition number (P : ustr -> Prop) (k : Z) : Prop := exists us, NoDup us /\ (forall u, In u us <-> P u) /\ zlen us = k.
(** The pages of the table in namespace C with mimetype [m]. *)
Definition pages_of (V : view) (m : ustr) (u : ustr) : Prop :=
  in_C u = true /\ exists p t d, V u = Some p /\ pg_body p = Data t d /\ decode t = Ok m.
(** The table with the text of the counter at MCounter. *)
Definition text (c : counter) : bytes := encoded (to_string (ct_counts c)).
Definition filed (c : counter) (V : view) : view := vstep V (VContent URL_COUNTER (text c)).

(** The operations of a user do not touch MCounter.  Pages are not moved into
    or out of namespace C.  An archive that is not dirty is only flushed if its
    counter is not dirty either.  An archive is only closed and opened again if
    its mimetypes can be read back from MCounter (see C20). *)
Definition untouched (o : vop) (V : view) : Prop :=
  match o with
  | VAdd it _ _ => item_url it <> URL_COUNTER
  | VLink source _ _ => source <> URL_COUNTER
  | VEdit u l => u <> URL_COUNTER /\ forall p, V u = Some p -> let v := fst (set_fields l u p) in v <> URL_COUNTER /\ in_C v = in_C u
  | VContent u _ | VRemove u => u <> URL_COUNTER
  | VMain _ | VFlush | VReopen _ _ => True
  end.
Definition readable_mimes (V : view) : Prop := forall m u, pages_of V m u -> safe_mime m.

Section Spec.
Variable fuel : nat.
Context {D : Type}.
Variable dc : decomp D.
Variable new_decomp : ctype -> res D.
Context {K : Type}.
Variable new_comp : ctype -> res K.
Variable comp : K -> bytes -> res (bytes * K).
Variable flush : K -> res bytes.
Variable depth : nat.
Variable kd : ckind.
Variable Stream : ctype -> bytes -> bytes -> Prop.
Context {H : Type}.
Variable md5 : H.
Variable feed : H -> bytes -> H.
Variable digest : H -> bytes.
Variable reserve : option Z.
Variable truncate : bool.
Variable process_blob : entry -> M zim unit.
Variable rounds : nat.
Notation suff := (suffices fuel Stream reserve).

(** The loops of the model are long enough in the states that a flush passes
    through; when the text of the counter is stored, no other page has the same
    blob as MCounter. *)
Definition count_suffices (A : farchive) (c : counter) (V : view) : Prop :=
  (forall A2 c2, (let* _ := uncounted sync_main in count_content fuel new_comp comp flush depth process_blob rounds) (A, c) = (Ok tt, (A2, c2)) ->
     suff A2 /\ allowed fuel A2 V (VContent URL_COUNTER (text c2)) /\
     forall A3 c3, store_counter fuel dc new_decomp new_comp comp flush kd (A2, c2) = (Ok tt, (A3, c3)) ->
       suff A3 /\ forall A4, (let* _ := sync_main in flush_articles fuel dc new_decomp new_comp comp flush kd) A3 = (Ok tt, A4) ->
         suff A4 /\ forall A5, flush_titles fuel dc new_decomp new_comp comp flush depth kd A4 = (Ok tt, A5) -> suff A5) /\
  forall A' c', count_flush fuel dc new_decomp new_comp comp flush depth kd md5 feed digest reserve truncate process_blob rounds (A, c) = (Ok tt, (A', c')) -> suff A'.

Definition cok (A : farchive) (c : counter) (V : view) (o : vop) : Prop :=
  vok fuel A V o /\ untouched o V /\
  match o with
  | VFlush => (is_dirty A = true \/ ct_dirty c = false) /\ count_suffices A c V
  | VReopen _ _ => (is_dirty A = true \/ ct_dirty c = false) /\ count_suffices A c V /\ readable_mimes V
  | _ => True
  end.
Definition cstep (V : view) (o : vop) (c : counter) : view := match o with VFlush | VReopen _ _ => filed c V | _ => vstep V o end.

(** [ops] are performed one after the other, all of them return; the table at the end is the last argument. *)
Inductive cruns (n : Z) : farchive -> counter -> view -> list vop -> farchive -> counter -> view -> Prop :=
| cruns_nil A c V : within_limits fuel Stream reserve A -> ViewSpec.counts n A -> cruns n A c V [] A c V
| cruns_cons A c V o A1 c1 ops A' c' V' : within_limits fuel Stream reserve A -> ViewSpec.counts n A -> cok A c V o ->
    count_op fuel dc new_decomp new_comp comp flush depth kd md5 feed digest reserve truncate process_blob rounds (A, c) o = (Ok tt, (A1, c1)) ->
    cruns n A1 c1 (cstep V o c1) ops A' c' V' -> cruns n A c V (o :: ops) A' c' V'.
End Spec.

(** The content entries of an archive in namespace C with mimetype [m]. *)
Definition content_entry (A : farchive) (m u : ustr) : Prop :=
  in_C u = true /\ exists e c b t, get_entry_by_full_url (fa_zim A) u = Ok e /\ e_kind e = Content c b /\ mt_get (e_mimetype e) (ml_types (fa_mimes A)) = Ok t /\ decode t = Ok m.
(** Two tables that differ at most in the content of MCounter. *)
Definition beside_counter (V V' : view) : Prop :=
  (forall u, u <> URL_COUNTER -> V' u = V u) /\
  match V URL_COUNTER, V' URL_COUNTER with
  | Some p, Some p' => pg_title p' = pg_title p /\ pg_article p' = pg_article p /\
      match pg_body p, pg_body p' with Data m _, Data m' _ => m' = m | Link t, Link t' => t' = t | _, _ => False end
  | None, None => True
  | _, _ => False
  end.
