(** Specification vocabulary for entry objects. *)
From Coq Require Import List ZArith Bool.
From Verif Require Import Base Utf8 Entry EntrySpec MimeTypeList EntryObject.
Import ListNotations.
Open Scope Z_scope.

(** An entry that can be stored in an archive and read back as the same entry (see C09). *)
Definition representable (e : entry) : Prop := entry_storable e /\ kind_consistent e.

(** The text a [str] or [bytes] argument stands for. *)
Definition text (v : pystr) (u : ustr) : Prop :=
  match v with PyStr s => u = s | PyBytes b => utf8_decode b = Some u end.

(** What [entry.attribute = value] is meant to do to the attributes of the entry;
    [types] is the mimetype list of the archive afterwards. *)
Definition intended (a : assignment) (e : entry) (types : list bytes) (e' : entry) : Prop :=
  match a with
  | ANamespace v => exists u, text v u /\ e' = mkEntry (e_mimetype e) u (e_url e) (e_title e) (e_kind e)
  | AUrl v => exists u, text v u /\ e' = mkEntry (e_mimetype e) (e_ns e) u (e_title e) (e_kind e)
  | ATitle None => e' = mkEntry (e_mimetype e) (e_ns e) (e_url e) (Some []) (e_kind e)
  | ATitle (Some v) => exists u, text v u /\ e' = mkEntry (e_mimetype e) (e_ns e) (e_url e) (Some u) (e_kind e)
  | AFullUrl v => exists c u, text v (c :: u) /\ e' = mkEntry (e_mimetype e) [c] u (e_title e) (e_kind e)
  | AMimetypeId m => e' = mkEntry m (e_ns e) (e_url e) (e_title e) (e_kind e)
  | AMimetype v => exists u b m, text v u /\ utf8_encode u = Some b /\ znth types m = Some b /\
                     e' = mkEntry m (e_ns e) (e_url e) (e_title e) (e_kind e)
  | AIsArticle _ => e' = e
  | AClusterNumber v => e' = match e_kind e with
                             | Content _ b => mkEntry (e_mimetype e) (e_ns e) (e_url e) (e_title e) (Content v b)
                             | Redirect _ => e
                             end
  | ABlobNumber v => e' = match e_kind e with
                          | Content c _ => mkEntry (e_mimetype e) (e_ns e) (e_url e) (e_title e) (Content c v)
                          | Redirect _ => e
                          end
  | ARedirectIndex v => e' = match e_kind e with
                             | Redirect _ => mkEntry (e_mimetype e) (e_ns e) (e_url e) (e_title e) (Redirect v)
                             | Content _ _ => e
                             end
  end.

(** Values that fit the file format: the numbers have four bytes, the mimetype
    number two, of which 65535 marks redirects. *)
Definition fits (a : assignment) (e : entry) (types : list bytes) : Prop :=
  match a with
  | AMimetypeId m => m < 65535 /\ exists c b, e_kind e = Content c b
  | AMimetype _ => zlen types < 65535 /\ exists c b, e_kind e = Content c b
  | AClusterNumber v | ABlobNumber v | ARedirectIndex v => v < 2 ^ 32
  | _ => True
  end.
