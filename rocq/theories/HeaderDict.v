(** [Header.to_dict], header.py 734-761, for C102. *)
From Coq Require Import List ZArith Bool.
From Coq Require String.
From Verif Require Import Base Utf8 Header.
Import ListNotations.
Open Scope Z_scope.

(** The values in the dictionary. *)
Inductive dval := DInt (z : Z) | DText (s : ustr) | DBool (b : bool) | DNone.
Definition dval_opt (o : option Z) : dval := match o with Some z => DInt z | None => DNone end.

(** [uuid.int]: the bytes are a big endian number. *)
Definition uuid_int (u : bytes) : Z := le_val (rev u).
(** One digit of the format "x". *)
Definition hex_digit (d : Z) : Z := if d <? 10 then 48 + d else 87 + d.
(** The last [n] digits of a number, beginning with the last one. *)
Fixpoint hex_low (n : nat) (v : Z) : ustr :=
  match n with O => [] | S n => hex_digit (v mod 16) :: hex_low n (v / 16) end.
(** [uuid.hex]: ['%032x' % self.int]; the number has no more than 32 digits. *)
Definition uuid_hex (u : bytes) : ustr := rev (hex_low 32 (uuid_int u)).

Section Keys.
Import String.
Open Scope string_scope.
(** The dictionary, in the order of its definition (743-760); the first key has a
    colon in it.  [has_main_page] (588-595) and [has_layout_page] (632-639) ask
    whether the page is [None]. *)
Definition to_dict (h : header) : list (string * dval) :=
  [("magic_number:", DInt (h_magic h)); ("version_major", DInt (h_major h)); ("version_minor", DInt (h_minor h));
   ("uuid", DText (uuid_hex (h_uuid h))); ("uuid_int", DInt (uuid_int (h_uuid h)));
   ("count_entries", DInt (h_entry_count h)); ("count_clusters", DInt (h_cluster_count h));
   ("pointer_url", DInt (h_url_pos h)); ("pointer_title", DInt (h_title_pos h));
   ("pointer_cluster", DInt (h_cluster_pos h)); ("pointer_mimetype", DInt (h_mime_pos h));
   ("has_main_page", DBool (match main_page h with Some _ => true | None => false end)); ("index_main_page", dval_opt (main_page h));
   ("has_layout_page", DBool (match layout_page h with Some _ => true | None => false end)); ("index_layout_page", dval_opt (layout_page h));
   ("pointer_checksum", DInt (h_checksum_pos h))].
End Keys.
