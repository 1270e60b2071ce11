(** Specification vocabulary for headers. *)
From Coq Require Import List ZArith Bool.
From Verif Require Import Base Header.
Import ListNotations.
Open Scope Z_scope.

(** Every field fits its width on disk. *)
Definition header_fits (h : header) : Prop :=
  0 <= h_magic h < 2 ^ 32 /\ 0 <= h_major h < 2 ^ 16 /\ 0 <= h_minor h < 2 ^ 16 /\
  zlen (h_uuid h) = 16 /\
  0 <= h_entry_count h < 2 ^ 32 /\ 0 <= h_cluster_count h < 2 ^ 32 /\
  0 <= h_url_pos h < 2 ^ 64 /\ 0 <= h_title_pos h < 2 ^ 64 /\
  0 <= h_cluster_pos h < 2 ^ 64 /\ 0 <= h_mime_pos h < 2 ^ 64 /\
  0 <= h_main_page h < 2 ^ 32 /\ 0 <= h_layout_page h < 2 ^ 32 /\
  0 <= h_checksum_pos h < 2 ^ 64.

(** operations on a header object *)
Inductive hop := HAssign (f : hfield) (v : pyval) | HFlush | HSetMutable (m : bool).

(** An operation that raises leaves the object as it was. The second component
    is the header as it was last persisted. *)
Definition hstep (st : hobj * header) (op : hop) : hobj * header :=
  let (o, saved) := st in
  match op with
  | HAssign f v => match hassign f v o with Ok o' => (o', saved) | Err _ => (o, saved) end
  | HFlush => match hflush o with Ok (_, o') => (o', ho_hdr o') | Err _ => (o, saved) end
  | HSetMutable m => (mkHobj (ho_hdr o) (ho_dirty o) m (ho_old_size o), saved)
  end.

