(** Model of the cluster information byte (cluster.py 115-162) and of
    [CompressionType] and [CompressionRegistry] (compression.py 31-42, 127-228). *)
From Coq Require Import List ZArith Bool.
From Verif Require Import Base Dict.
Import ListNotations.
Open Scope Z_scope.

(** [CompressionType], compression.py 31-42. *)
Inductive ctype := UNKNOWN | NONE | ZLIB | BZ2 | LZMA2 | ZSTD.
Definition ctype_value (c : ctype) : Z :=
  match c with UNKNOWN => -1 | NONE => 1 | ZLIB => 2 | BZ2 => 3 | LZMA2 => 4 | ZSTD => 5 end.
(** [CompressionType(v)]: the member with this value or ValueError. *)
Definition ctype_of (v : Z) : option ctype :=
  if v =? -1 then Some UNKNOWN else if v =? 1 then Some NONE else if v =? 2 then Some ZLIB
  else if v =? 3 then Some BZ2 else if v =? 4 then Some LZMA2 else if v =? 5 then Some ZSTD else None.
Definition ctype_eqb (a b : ctype) : bool := ctype_value a =? ctype_value b.

(** [parse_infobyte], cluster.py 115-132; the result is what is stored in
    [self.compression] and [self.is_extended].  UnsupportedCompressionType is
    the model's [CompressionErr]. *)
Definition parse_infobyte (b : byte) : res (ctype * bool) :=
  let as_int := Zb b in
  let lower_4_bits := Z.land as_int 15 in
  let higher_4_bits := Z.shiftr as_int 4 in
  match ctype_of lower_4_bits with
  | None => Err CompressionErr
  | Some c => Ok (c, Z.land higher_4_bits 1 =? 1)
  end.

(** [generate_infobyte], 152-162: [chr] rejects negative values (ValueError),
    the ASCII encoding rejects values above 127. *)
Definition generate_infobyte (c : ctype) (is_extended : bool) : res byte :=
  let higher_4_bits := if is_extended then 1 else 0 in
  let lower_4_bits := ctype_value c in
  let value := Z.shiftl higher_4_bits 4 + lower_4_bits in
  if value <? 0 then Err ValueError
  else if 127 <? value then Err UnicodeErr
  else Ok (bZ value).

(** ** The registry.  An interface is a class; its identity is a number. *)
Definition iface := Z.
Definition registry := list (ctype * list iface).

(** [register], compression.py 145-160. *)
Definition register (t : ctype) (i : iface) (r : registry) : registry :=
  match dget ctype_eqb t r with
  | None => dset ctype_eqb t [i] r
  | Some l => dset ctype_eqb t (l ++ [i]) r
  end.
(** [list.remove]: the first occurrence. *)
Fixpoint remove1 (i : iface) (l : list iface) : list iface :=
  match l with [] => [] | x :: r => if x =? i then r else x :: remove1 i r end.
(** The loop of [unregister], 181-185; an unknown type raises KeyError. *)
Fixpoint unregister_loop (ts : list ctype) (i : option iface) (r : registry) : registry * res unit :=
  match ts with
  | [] => (r, Ok tt)
  | ct :: ts =>
      match dget ctype_eqb ct r with
      | None => (r, Err KeyError)
      | Some l =>
          match i with
          | None => unregister_loop ts i (ddel ctype_eqb ct r)
          | Some x =>
              if existsb (fun y => y =? x) l then unregister_loop ts i (dset ctype_eqb ct (remove1 x l) r)
              else unregister_loop ts i r
          end
      end
  end.
(** [unregister], 162-185. *)
Definition unregister (t : option ctype) (i : option iface) (r : registry) : registry * res unit :=
  let ts := match t with None => map fst r | Some t => [t] end in
  unregister_loop ts i r.
(** [get], 187-202; [[][0]] raises IndexError. *)
Definition reg_get (t : ctype) (r : registry) : res iface :=
  match dget ctype_eqb t r with
  | Some (i :: _) => Ok i
  | Some [] => Err IndexError
  | None => Err CompressionErr
  end.
(** [has], 204-215. *)
Definition reg_has (t : ctype) (r : registry) : bool := dmem ctype_eqb t r.
(** [iter_for], 217-228. *)
Definition iter_for (t : ctype) (r : registry) : list iface :=
  match dget ctype_eqb t r with Some l => l | None => [] end.

Inductive regop := RegAdd (t : ctype) (i : iface) | RegDel (t : option ctype) (i : option iface).
Definition reg_step (r : registry) (o : regop) : registry :=
  match o with RegAdd t i => register t i r | RegDel t i => fst (unregister t i r) end.
