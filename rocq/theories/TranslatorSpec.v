(** What C72 says: which pages a copy of an archive has. *)
From Coq Require Import List ZArith Bool.
From Verif Require Import Base Utf8 ViewSpec.
Import ListNotations.
Open Scope Z_scope.

(** Xlisting/titleOrdered/v0, Xlisting/titleOrdered/v1 and MCounter: these
    pages are not copied. *)
Definition titleOrdered : ustr := [88; 108; 105; 115; 116; 105; 110; 103; 47; 116; 105; 116; 108; 101; 79; 114; 100; 101; 114; 101; 100; 47; 118].
Definition left_out (u : ustr) : Prop := u = titleOrdered ++ [48] \/ u = titleOrdered ++ [49] \/ u = [77; 67; 111; 117; 110; 116; 101; 114].

(** [W] is the table of a copy of an archive with table [V]: the same pages,
    with the titles under which they are shown. *)
Definition copy_of (V W : view) : Prop := forall u,
  (left_out u -> W u = None) /\
  (~ left_out u -> W u = match V u with Some p => Some (mkPage (shown_as u p) (pg_article p) (pg_body p)) | None => None end).

(** The redirects that are copied faithfully: their title is not their url (such
    a redirect gets the title of its target), they are no articles, they do not lead to themselves nor
    to a page that is left out. *)
Definition copyable (V : view) : Prop := forall u p t, V u = Some p -> pg_body p = Link t ->
  shown_as u p <> tl u /\ pg_article p = false /\ t <> u /\ ~ left_out u /\ ~ left_out t.
