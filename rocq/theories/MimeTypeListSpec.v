(** Specification vocabulary for mimetype lists. *)
From Coq Require Import List ZArith Bool.
From Verif Require Import Base Utf8 MimeTypeList.
Import ListNotations.
Open Scope Z_scope.

(** A mimetype the file format can represent: not empty, no zero byte. *)
Definition mt_storable (m : bytes) : Prop := m <> [] /\ ~ In x00 m.

(** Operations of a user on one list object; failing operations leave it unchanged. *)
Inductive mop :=
| MRegister (s : pystr)
| MGetIndex (s : pystr) (reg : bool)
| MFlush.

Definition mop_step (o : mlist) (op : mop) : mlist :=
  match op with
  | MRegister s => match mt_register s o with Ok o' => o' | Err _ => o end
  | MGetIndex s reg => match mt_get_index s reg o with Ok (_, o') => o' | Err _ => o end
  | MFlush => snd (mt_flush o)
  end.
