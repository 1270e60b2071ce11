(** What C83 says about threads that read from the clusters of one archive. *)
From Coq Require Import List ZArith Bool.
From Verif Require Import Base Infobyte Reader ReaderSpec Cluster ClusterSpec Threads.
Import ListNotations.
Open Scope Z_scope.

Definition at_key {A} (g : nat) (v : A) (m : nat -> A) : nat -> A := fun j => if Nat.eqb j g then v else m j.

Section Spec.
(** The contents of the clusters, and their classes. *)
Variables (ct : nat -> ctype) (ext : nat -> bool) (blobs : nat -> list bytes) (C : nat -> bytes) (ends : nat -> bool).
Variable kind : nat -> ckind.

(** What a generator still has to hand out: the bytes of [Rest], in chunks of
    at most [n] bytes; or the blob does not exist; or it is at its end. *)
Inductive want := Missing | Rest (b : bytes) (n : Z) | Over.
Definition wants (k : nat) (i n : Z) (start stop : option Z) : want :=
  match znth (blobs k) i with Some b => Rest (part start stop b) n | None => Missing end.
(** The answer to [next] and what is wanted then; an empty chunk only if there
    is nothing to hand out. *)
Definition next_ok (w : want) (a : got) (w' : want) : Prop :=
  match w with
  | Missing => a = GRaise BlobNotFound /\ w' = Over
  | Over => a = GStop /\ w' = Over
  | Rest b n =>
      (a = GStop /\ b = [] /\ w' = Over) \/
      (exists x b', a = GChunk x /\ b = x ++ b' /\ zlen x <= n /\ (x = [] -> b = []) /\ w' = Rest b' n)
  end.

(** What a thread has to get for its commands; [m]: its generators. *)
Fixpoint results (cs : list cmd) (l : list got) (m : nat -> want) : Prop :=
  match cs, l with
  | [], [] => True
  | Call k q :: cs, a :: l => (exists x, a = GAns x /\ answer (ct k) (ext k) (blobs k) (C k) q x) /\ results cs l m
  | Open g k i n s e :: cs, a :: l => a = GNothing /\ results cs l (at_key g (wants k i n s e) m)
  | Next g :: cs, a :: l => exists w, next_ok (m g) a w /\ results cs l (at_key g w m)
  | Close g :: cs, a :: l => a = GNothing /\ results cs l (at_key g Over m)
  | Elsewhere _ :: cs, a :: l => a = GNothing /\ results cs l m
  | _, _ => False
  end.

(** Sensible calls, as in C25 and C26; nobody resets a cluster. *)
Definition usable (c : cmd) : Prop :=
  match c with
  | Call k q => q <> QReset /\ allowed_call (ct k) (blobs k) (kind k) (ends k) q
  | Open _ k i n s e => allowed_call (ct k) (blobs k) (kind k) (ends k) (QIter i n s e)
  | _ => True
  end.

(** Between the first [next] of a generator and its [close] the thread does
    nothing else with the archive, unless the cluster of the generator keeps its
    data in memory.  [cl]: the clusters of the generators; [active]: the
    generator that is in use. *)
Fixpoint tidy (cs : list cmd) (cl : nat -> nat) (active : option nat) : Prop :=
  match cs with
  | [] => active = None
  | Call _ _ :: cs | Elsewhere _ :: cs => active = None /\ tidy cs cl None
  | Open g k _ _ _ _ :: cs => active <> Some g /\ tidy cs (at_key g k cl) active
  | Next g :: cs =>
      (active = None \/ active = Some g) /\
      tidy cs cl (match kind (cl g) with KInMemory => active | _ => Some g end)
  | Close g :: cs =>
      tidy cs cl (match active with Some a => if Nat.eqb a g then None else Some a | None => None end)
  end.
End Spec.

(** A thread is at its end. *)
Definition ended {St A} (p : prog St A) : Prop := exists r, p = Ret r.
Definition finished {St A} (c : config St A) : Prop := Forall ended (cf_threads c).
(** Some thread can go on. *)
Definition can_go_on {St A} (c : config St A) : Prop := exists i c', tstep i c = Some c'.
(** A run that never ends. *)
Definition endless {St A} (c : config St A) : Prop :=
  exists run : nat -> config St A, run 0%nat = c /\ forall n, exists i, tstep i (run n) = Some (run (S n)).
