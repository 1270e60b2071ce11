(** What C24 assumes of a decompressor and says about the reader. *)
From Coq Require Import List ZArith Bool.
From Verif Require Import Base Reader.
Import ListNotations.
Open Scope Z_scope.

(** The documented contract of a streaming decompressor (as for Python's
    [lzma.LZMADecompressor] and [bz2.BZ2Decompressor]).  [Rep d c o u] reads:
    the decompressor in state [d] still has to be fed the compressed bytes [c],
    will still produce the bytes [o], and was fed the bytes [u] beyond the end
    of the compressed data.  [J] is what follows the compressed data in the
    file. *)
Record contract {D : Type} (dc : decomp D) (J : bytes) (Rep : D -> bytes -> bytes -> bytes -> Prop) : Prop := {
  (** not at the end of the stream while output is still to come *)
  ct_not_eof : forall d c o u, Rep d c o u -> o <> [] -> d_eof dc d = false;
  (** asks for input only if there is some, while output is still to come *)
  ct_needs : forall d c o u, Rep d c o u -> o <> [] -> d_needs dc d = true -> c <> [];
  (** being fed (the next bytes of the file if it asked for input, nothing
      otherwise) it produces the next part of the output; it produces nothing
      only if it then asks for more input, or nothing is left to be produced *)
  ct_step : forall d c o u x m,
    Rep d c o u -> d_eof dc d = false -> 1 <= m ->
    (d_needs dc d = true <-> x <> []) ->
    (exists r, x ++ r = c ++ zskip (zlen u) J) ->
    exists y o' d', d_dec dc d x m = Ok (y, d') /\ o = y ++ o' /\
      Rep d' (zskip (zlen x) c) o' (u ++ zskip (zlen c) x) /\
      (y = [] -> o <> [] -> d_needs dc d' = true);
}.

(** A decompressor that recognises the end of its stream. *)
Record contract_end {D : Type} (dc : decomp D) (J : bytes) (Rep : D -> bytes -> bytes -> bytes -> Prop) : Prop := {
  ce_needs : forall d c u, Rep d c [] u -> d_eof dc d = false -> d_needs dc d = true -> c <> [];
  ce_eof : forall d c o u, Rep d c o u -> d_eof dc d = true -> c = [] /\ d_unused dc d = u /\ d_needs dc d = false;
  (** ... and reports it once it got everything *)
  ce_done : forall d c x m y d' u, Rep d c [] u -> d_eof dc d = false -> 1 <= m ->
    (d_needs dc d = true <-> x <> []) -> (exists r, x ++ r = c ++ zskip (zlen u) J) ->
    d_dec dc d x m = Ok (y, d') -> y = [] -> d_needs dc d' = false -> d_eof dc d' = true;
}.

(** Calls on a reader.  [CReseek p]: others have moved the file to [p], the
    reader goes back to its place. *)
Inductive rcall :=
| CRead (n extra : Z)
| CReadN (n : Z)
| CIter (fuel : nat) (n buffersize : Z)
| CSkip (n : Z)
| CSkipTo (offset : Z)
| CReseek (p : Z).

(** Results of calls. *)
Inductive rans := ABytes (b : bytes) | AChunks (l : list bytes) | ANone | AErr (e : exn).

(** The answer expected of a call at position [p] of the stream [o] and the
    position afterwards. *)
Definition upto (o : bytes) (p n : Z) : Z := Z.min (p + n) (zlen o).
Definition expected (o : bytes) (p : Z) (c : rcall) (a : rans) (p' : Z) : Prop :=
  match c with
  | CRead n _ =>
      (* some bytes, no more than asked for; none only at the end *)
      exists k, a = ABytes (zsub p k o) /\ p' = p + k /\ 0 <= k <= n /\ p' <= zlen o /\ (p < zlen o -> 1 <= k)
  | CReadN n => a = ABytes (zsub p n o) /\ p' = Z.max p (upto o p n)
  | CIter _ n bs =>
      let e := if n <? 0 then zlen o else upto o p n in
      exists l, a = AChunks l /\ concat l = zsub p (e - p) o /\ Forall (fun x => 1 <= zlen x <= bs) l /\ p' = e
  | CSkip n => a = ANone /\ p' = upto o p n
  | CSkipTo off =>
      if off <? p then a = AErr IOErr /\ p' = p else a = ANone /\ p' = upto o p (off - p)
  | CReseek _ => a = ANone /\ p' = p
  end.

(** Calls with sensible arguments. *)
Definition proper (o : bytes) (c : rcall) : Prop :=
  match c with
  | CRead n extra => 1 <= n /\ 0 <= extra
  | CReadN n => True
  | CIter fuel n bs => 1 <= bs /\ zlen o + 2 <= Z.of_nat fuel
  | CSkip n => 0 <= n
  | CSkipTo off => 0 <= off
  | CReseek _ => True
  end.
(** Calls that do not try to read beyond the end of the stream. *)
Definition within (o : bytes) (p : Z) (c : rcall) : Prop :=
  match c with
  | CRead n _ => p < zlen o
  | CReadN n => p + n <= zlen o
  | CIter _ n _ => 0 <= n /\ p + n <= zlen o
  | CSkip n => p + n <= zlen o
  | CSkipTo off => off <= zlen o
  | CReseek _ => True
  end.

(** Performing a call. *)
Definition perform {D} (dc : decomp D) (f : bytes) (base : Z) (c : rcall) (r : reader D) : rans * reader D :=
  match c with
  | CRead n extra => let '(x, r) := read dc f n extra r in (match x with Ok b => ABytes b | Err e => AErr e end, r)
  | CReadN n => let '(x, r) := read_n dc f n r in (match x with Ok b => ABytes b | Err e => AErr e end, r)
  | CIter fuel n bs => let '(x, r) := iter_read dc f fuel n bs r in (match x with Ok b => AChunks b | Err e => AErr e end, r)
  | CSkip n => let '(x, r) := skip dc f n r in (match x with Ok _ => ANone | Err e => AErr e end, r)
  | CSkipTo off => let '(x, r) := skip_to dc f off r in (match x with Ok _ => ANone | Err e => AErr e end, r)
  | CReseek p => (ANone, reseek base (moved_to p r))
  end.

(** A run of calls whose answers are all as expected, starting at position [p]. *)
Fixpoint all_expected {D} (dc : decomp D) (f : bytes) (base : Z) (ends : bool) (o : bytes) (p : Z)
    (r : reader D) (calls : list rcall) : Prop :=
  match calls with
  | [] => True
  | c :: cs =>
      proper o c -> (ends = true \/ within o p c) ->
      exists p', expected o p c (fst (perform dc f base c r)) p' /\
        all_expected dc f base ends o p' (snd (perform dc f base c r)) cs
  end.
