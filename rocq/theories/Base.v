(** Common vocabulary of the model: bytes, Python integers, exceptions as
    values, slices, little-endian integers ([struct] module). *)
From Coq Require Import List ZArith NArith Lia Bool.
From Coq Require Export Init.Byte.
From Coq Require Strings.Byte.
Import ListNotations.
Open Scope Z_scope.

(** Python exceptions that the modelled code can raise.  [Diverge] stands for
    "the loop has not finished within the given fuel", [Deadlock] for "the thread
    waits for a lock it holds itself". *)
Inductive exn : Type :=
| ValueError | KeyError | IndexError | TypeError | AssertionError
| AttributeError | StructError | IOErr | UnicodeErr | ZeroDivErr | OverflowErr
| NonMutable | EntryNotFound | BlobNotFound | NotAZim | IncompatibleZim
| ZimWriteExc | UnresolvedRedirect | CompressionErr | AlreadyBound | UnboundErr
| ZimFeatureMissing | BlobReplaced | RecursionErr | UnsortedList
| OperationNotSupported | NoCounter | Deadlock | RuntimeErr | ZimFileClosed | Diverge.

(** The outcome of a Python call: a value or an exception. *)
Inductive res (A : Type) : Type :=
| Ok (a : A)
| Err (e : exn).
Arguments Ok {A} a.
Arguments Err {A} e.

Definition bind {A B} (m : res A) (f : A -> res B) : res B :=
  match m with Ok a => f a | Err e => Err e end.
Notation "'do' x <- m ;; k" := (bind m (fun x => k))
  (at level 200, x pattern, m at level 100, k at level 200, right associativity).

Definition is_ok {A} (r : res A) : bool := match r with Ok _ => true | Err _ => false end.

(** ** Bytes *)
Definition bytes := list byte.

(** integer value of a byte *)
Definition Zb (b : byte) : Z := Z.of_N (Byte.to_N b).

(** byte with the given value modulo 256 *)
Definition bZ (z : Z) : byte :=
  match Byte.of_N (Z.to_N (z mod 256)) with Some b => b | None => x00 end.

Definition zlen {A} (l : list A) : Z := Z.of_nat (length l).
(** [l[:n]] and [l[n:]] for [n >= 0] (and [[]], [l] for negative [n]) *)
Definition ztake {A} (n : Z) (l : list A) : list A := firstn (Z.to_nat n) l.
Definition zskip {A} (n : Z) (l : list A) : list A := skipn (Z.to_nat n) l.
(** [l[i:i+n]] for non-negative [i], [n] *)
Definition zsub {A} (i n : Z) (l : list A) : list A := ztake n (zskip i l).

(** Element [i] of a Python list, without negative indices. *)
Definition znth {A} (l : list A) (i : Z) : option A :=
  if i <? 0 then None else nth_error l (Z.to_nat i).

(** ** [struct] integers, little endian *)
Fixpoint le_bytes (n : nat) (v : Z) : bytes :=
  match n with
  | O => []
  | S n' => bZ v :: le_bytes n' (v / 256)
  end.

Fixpoint le_val (b : bytes) : Z :=
  match b with
  | [] => 0
  | x :: r => Zb x + 256 * le_val r
  end.

(** [struct.pack("<B"/"<H"/"<I"/"<Q", v)]: [struct.error] if out of range. *)
Definition pack_le (n : nat) (v : Z) : res bytes :=
  if (0 <=? v) && (v <? 256 ^ Z.of_nat n) then Ok (le_bytes n v) else Err StructError.

(** Equality of byte strings. *)
Fixpoint beqb (a b : bytes) : bool :=
  match a, b with
  | [], [] => true
  | x :: a', y :: b' => Byte.eqb x y && beqb a' b'
  | _, _ => false
  end.

(** Python's order on [bytes]: lexicographic by byte value. *)
Fixpoint bltb (a b : bytes) : bool :=
  match a, b with
  | [], [] => false
  | [], _ :: _ => true
  | _ :: _, [] => false
  | x :: a', y :: b' =>
      (Zb x <? Zb y) || ((Zb x =? Zb y) && bltb a' b')
  end.

(** [s.startswith(p)] *)
Fixpoint bprefix (p s : bytes) : bool :=
  match p, s with
  | [], _ => true
  | _ :: _, [] => false
  | x :: p', y :: s' => Byte.eqb x y && bprefix p' s'
  end.

(** ** Files as byte strings *)

(** [f.seek(off); f.read(n)], [n >= 0]: short result at end of file. *)
Definition fread (f : bytes) (off n : Z) : bytes := zsub off n f.

(** [f.seek(off); f.write(bs)]: a gap past the end of file is filled with
    zero bytes.  (Python fills it only when the next non-empty write happens;
    the only empty writes of the modelled code are those of empty pointer lists,
    at the position where [flush] then writes the checksum.) *)
Definition fwrite (f : bytes) (off : Z) (bs : bytes) : bytes :=
  ztake off (f ++ repeat x00 (Z.to_nat (off - zlen f))) ++ bs ++ zskip (off + zlen bs) f.
