(** What is assumed of the library objects under the wrappers. *)
From Coq Require Import List ZArith Bool.
From Verif Require Import Base Reader Decompressors.
Import ListNotations.
Open Scope Z_scope.

(** zlib.  [IRep d c o u]: [c] is the compressed data not yet consumed, [o] the
    output to come, [u] what was fed beyond the end.  The stream ends exactly
    when everything is consumed. *)
Record zlib_contract {St} (zo : zlibobj St) (J : bytes) (IRep : St -> bytes -> bytes -> bytes -> Prop) : Prop := {
  zc_eof : forall d c o u, IRep d c o u -> (zl_eof zo d = true <-> c = []);
  zc_end : forall d c o u, IRep d c o u -> c = [] -> o = [] /\ zl_tail zo d = [] /\ zl_unused zo d = u;
  (** decompressing [z], the next bytes of the file, consumes a prefix [k] of it
      and leaves the rest in the tail (or, beyond the end, in the unused data);
      it stops early only because the limit is reached *)
  zc_step : forall d c o u z m, IRep d c o u -> c <> [] -> 1 <= m ->
    (exists r, z ++ r = c ++ J) -> z <> [] ->
    exists y o' k t d', zl_dec zo d z m = Ok (y, d') /\ o = y ++ o' /\ zlen y <= m /\ z = k ++ t /\
      IRep d' (zskip (zlen k) c) o' (if zl_eof zo d' then t else []) /\
      zlen k <= zlen c /\
      (zl_eof zo d' = false -> zl_tail zo d' = t) /\
      (y = [] -> t = [] \/ zl_eof zo d' = true);
}.

(** zstandard.  All output that the input allows comes at once, and a finished
    object must not be used again. *)
Record zstd_contract {St} (zo : zstdobj St) (J : bytes) (IRep : St -> bytes -> bytes -> bytes -> Prop) : Prop := {
  sc_eof : forall d c o u, IRep d c o u -> (zs_eof zo d = true <-> c = []);
  sc_end : forall d c o u, IRep d c o u -> c = [] -> o = [] /\ zs_unused zo d = u;
  sc_step : forall d c o u x, IRep d c o u -> c <> [] -> x <> [] ->
    (exists r, x ++ r = c ++ zskip (zlen u) J) ->
    exists y o' d', zs_dec zo d x = Ok (y, d') /\ o = y ++ o' /\
      IRep d' (zskip (zlen x) c) o' (u ++ zskip (zlen c) x);
}.
