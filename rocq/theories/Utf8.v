(** Model of [str.encode("utf-8")] and [bytes.decode("utf-8")] as used all over
    pyzim (constants.py 49: ENCODING = "utf-8").  A Python [str] is a list of
    code points, possibly including lone surrogates (which cannot be encoded). *)
From Coq Require Import List ZArith Bool.
From Verif Require Import Base.
Import ListNotations.
Open Scope Z_scope.

Definition ustr := list Z.

(** UTF-8 of one code point; [None]: UnicodeEncodeError. *)
Definition enc1 (c : Z) : option bytes :=
  if c <? 0 then None
  else if c <? 128 then Some [bZ c]
  else if c <? 2048 then Some [bZ (192 + c / 64); bZ (128 + c mod 64)]
  else if c <? 65536 then
    if (55296 <=? c) && (c <? 57344) then None
    else Some [bZ (224 + c / 4096); bZ (128 + (c / 64) mod 64); bZ (128 + c mod 64)]
  else if c <? 1114112 then
    Some [bZ (240 + c / 262144); bZ (128 + (c / 4096) mod 64); bZ (128 + (c / 64) mod 64); bZ (128 + c mod 64)]
  else None.

Fixpoint utf8_encode (s : ustr) : option bytes :=
  match s with
  | [] => Some []
  | c :: r =>
      match enc1 c, utf8_encode r with
      | Some a, Some b => Some (a ++ b)
      | _, _ => None
      end
  end.

Definition cont (b : byte) : bool := (128 <=? Zb b) && (Zb b <? 192).
Definition cval (b : byte) : Z := Zb b - 128.

(** Strict decoder: [None] is UnicodeDecodeError (truncated, overlong,
    surrogate, out of range). *)
Fixpoint utf8_decode (b : bytes) : option ustr :=
  match b with
  | [] => Some []
  | x :: r =>
      if Zb x <? 128 then option_map (cons (Zb x)) (utf8_decode r)
      else if Zb x <? 194 then None
      else if Zb x <? 224 then
        match r with
        | y :: r2 =>
            if cont y then option_map (cons ((Zb x - 192) * 64 + cval y)) (utf8_decode r2) else None
        | _ => None
        end
      else if Zb x <? 240 then
        match r with
        | y :: z :: r3 =>
            let c := (Zb x - 224) * 4096 + cval y * 64 + cval z in
            if cont y && cont z && (2048 <=? c) && negb ((55296 <=? c) && (c <? 57344))
            then option_map (cons c) (utf8_decode r3) else None
        | _ => None
        end
      else if Zb x <? 245 then
        match r with
        | y :: z :: w :: r4 =>
            let c := (Zb x - 240) * 262144 + cval y * 4096 + cval z * 64 + cval w in
            if cont y && cont z && cont w && (65536 <=? c) && (c <? 1114112)
            then option_map (cons c) (utf8_decode r4) else None
        | _ => None
        end
      else None
  end.

(** [s.encode("utf-8")] as a call that may raise. *)
Definition encode (s : ustr) : res bytes :=
  match utf8_encode s with Some b => Ok b | None => Err UnicodeErr end.
Definition decode (b : bytes) : res ustr :=
  match utf8_decode b with Some s => Ok s | None => Err UnicodeErr end.

(** Equality of strings ([==] on [str]). *)
Fixpoint ueqb (a b : ustr) : bool :=
  match a, b with
  | [], [] => true
  | x :: a', y :: b' => (x =? y) && ueqb a' b'
  | _, _ => false
  end.

(** Python's order on [str]: lexicographic by code point. *)
Fixpoint ultb (a b : ustr) : bool :=
  match a, b with
  | [], [] => false
  | [], _ :: _ => true
  | _ :: _, [] => false
  | x :: a', y :: b' => (x <? y) || ((x =? y) && ultb a' b')
  end.

(** [s.startswith(p)] *)
Fixpoint uprefix (p s : ustr) : bool :=
  match p, s with
  | [], _ => true
  | _ :: _, [] => false
  | x :: p', y :: s' => (x =? y) && uprefix p' s'
  end.
