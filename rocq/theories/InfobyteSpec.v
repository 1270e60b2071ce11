(** Independent vocabulary for C23 and C58. *)
From Coq Require Import List ZArith Bool.
From Verif Require Import Base Infobyte.
Import ListNotations.
Open Scope Z_scope.

(** The ZIM format: bits 0-3 hold the compression, bit 4 the extended flag. *)
Definition low_bits (b : byte) : Z := Zb b mod 16.
Definition bit4 (b : byte) : bool := Z.odd (Zb b / 16).
Definition known (v : Z) : Prop := 1 <= v <= 5.

(** Interfaces registered for a type and not unregistered since, oldest first.
    Unregistering an interface takes back its oldest registration. *)
Fixpoint take_back (i : iface) (l : list iface) : list iface :=
  match l with [] => [] | x :: r => if Z.eq_dec x i then r else x :: take_back i r end.
Definition live_step (t : ctype) (l : list iface) (o : regop) : list iface :=
  match o with
  | RegAdd t' i => if ctype_eqb t' t then l ++ [i] else l
  | RegDel (Some t') i => if ctype_eqb t' t then match i with None => [] | Some x => take_back x l end else l
  | RegDel None i => match i with None => [] | Some x => take_back x l end
  end.
Definition live (t : ctype) (h : list regop) : list iface := fold_left (live_step t) h [].
