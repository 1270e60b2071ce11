(** What C68 says: an archive has been flushed, items are added to it, and the
    program ends before the next flush. *)
From Coq Require Import List ZArith Bool.
From Verif Require Import Base Infobyte Archive ArchiveCluster Cluster CompressionStrategy CompressionStrategySpec.
Import ListNotations.
Open Scope Z_scope.

Definition file_of (z : zstate) : bytes := ca_file (sa_arch (zs_arch z)).

Section Spec.
Variable fuel : nat.
Context {K : Type}.
Variable new_comp : ctype -> res K.
Variable comp : K -> bytes -> res (bytes * K).
Variable flush : K -> res bytes.
Variable depth : nat.

(** Items are added, and the waiting items are written (as at the beginning of
    a flush, archive.py 553-556), in any order; the files that there are in
    between, the first and the last one included. *)
Inductive passes : zstate -> list sop -> zstate -> list bytes -> Prop :=
| passes_nil z : passes z [] z [file_of z]
| passes_cons z o z1 ops z' fs : perform_sop fuel new_comp comp flush depth z o = (Ok tt, z1) -> passes z1 ops z' fs -> passes z (o :: ops) z' (file_of z :: fs).
End Spec.

(** What may be found on the disk after a crash: of the data written since the
    file was [f], through the files [fs], any part may have arrived. *)
Definition torn (f : bytes) (fs : list bytes) (g : bytes) : Prop :=
  zlen f <= zlen g /\ forall x, (x < length f)%nat -> exists f', In f' fs /\ nth_error g x = nth_error f' x.
