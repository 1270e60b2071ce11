(** Specification vocabulary for entries. *)
From Coq Require Import List ZArith Bool.
From Verif Require Import Base Utf8 Entry.
Import ListNotations.
Open Scope Z_scope.

(** A string that can be stored: encodable and free of NUL characters. *)
Definition storable (s : ustr) : Prop := (exists b, utf8_encode s = Some b) /\ ~ In 0 s.

(** An entry the file format can represent. *)
Definition entry_storable (e : entry) : Prop :=
  0 <= e_mimetype e < 65536 /\
  (exists x, utf8_encode (e_ns e) = Some [x]) /\
  storable (e_url e) /\
  (exists t, e_title e = Some t /\ storable t) /\
  match e_kind e with
  | Content c b => 0 <= c < 2 ^ 32 /\ 0 <= b < 2 ^ 32
  | Redirect i => 0 <= i < 2 ^ 32
  end.

(** Content entries use an ordinary mimetype, redirects the reserved one. *)
Definition kind_consistent (e : entry) : Prop :=
  match e_kind e with
  | Content _ _ => e_mimetype e <> 65535
  | Redirect _ => e_mimetype e = 65535
  end.
