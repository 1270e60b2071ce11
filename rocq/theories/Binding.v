(** Model of pyzim/bindable.py and of what binding means for clusters
    (pyzim/cluster.py).  Archives are numbered; [files] gives the contents of the
    file of each, which do not change. *)
From Coq Require Import List ZArith Bool.
From Verif Require Import Base Infobyte Reader Cluster ClusterSpec.
Import ListNotations.
Open Scope Z_scope.

(** [_zim], bindable.py 48-58. *)
Definition binding := option nat.
(** [bound], 70-78. *)
Definition bound (b : binding) : bool := match b with Some _ => true | None => false end.
(** [bind], 80-94. *)
Definition bind_to (zim : nat) (b : binding) : res unit * binding :=
  match b with
  | Some z => if Nat.eqb z zim then (Ok tt, Some zim) else (Err AlreadyBound, b)
  | None => (Ok tt, Some zim)
  end.
(** [unbind], 96-100. *)
Definition unbind (b : binding) : binding := None.

(** A cluster object. *)
Record bcluster (D : Type) := mkBc { bc_zim : binding; bc_cluster : cluster D }.
Arguments mkBc {D}. Arguments bc_zim {D}. Arguments bc_cluster {D}.

Section Binding.
Context {D : Type}.
Variable dc : decomp D.
Variable new_decomp : ctype -> res D.
Variable fuel : nat.
Variable files : nat -> bytes.

(** A call of an unbound cluster: the assertions about the arguments come before
    [if not self.bound: raise BindRequired] (cluster.py 241-243, 290-292, 311-313,
    341-343, 360-362, 389-391, 419-421, 450-455, 496-502, 594-596, 614-617); [reset]
    needs nothing (54-60), and remembered offsets are given out (546-553).
    [UnboundErr] stands for BindRequired. *)
Definition ask_unbound (q : ccall) (c : cluster D) : cans * cluster D :=
  match q with
  | QReset => (CDone, reset c)
  | QOffsets ns =>
      (match cl_kind c, cl_offsets c with
       | KPlain, _ | _, None => CFail UnboundErr
       | _, Some l => CNums (select_offsets 0 ns l)
       end, c)
  | QBlobSize i => (if i <? 0 then CFail AssertionError else CFail UnboundErr, c)
  | QRead i s e =>
      (if (i <? 0) || match cl_kind c with KInMemory => false | _ => negb (range_ok s e) end then CFail AssertionError else CFail UnboundErr, c)
  | QIter i n s e =>
      (if (n <=? 0) || (i <? 0) || match cl_kind c with KInMemory => false | _ => negb (range_ok s e) end then CFail AssertionError else CFail UnboundErr, c)
  | _ => (CFail UnboundErr, c)
  end.

Inductive bcall := BBind (zim : nat) | BUnbind | BAsk (q : ccall).
(** A bound cluster reads from the file of the archive it is bound to
    ([self.zim.acquire_file()], 108 and 210).  Neither [bind] nor [unbind] changes
    anything else: what was remembered about the cluster stays. *)
Definition bcall_run (c : bcall) (b : bcluster D) : cans * bcluster D :=
  match c with
  | BBind zim =>
      let '(r, z) := bind_to zim (bc_zim b) in
      (match r with Ok _ => CDone | Err e => CFail e end, mkBc z (bc_cluster b))
  | BUnbind => (CDone, mkBc (unbind (bc_zim b)) (bc_cluster b))
  | BAsk q =>
      let '(a, c) := match bc_zim b with
                     | Some z => ask dc new_decomp (files z) fuel q (bc_cluster b)
                     | None => ask_unbound q (bc_cluster b)
                     end in
      (a, mkBc (bc_zim b) c)
  end.
Definition bcalls (h : list bcall) (b : bcluster D) : bcluster D := fold_left (fun b c => snd (bcall_run c b)) h b.
(** [Cluster(zim=zim, offset=offset)], 32-52. *)
Definition read_from (kd : ckind) (zim : nat) (offset : Z) : bcluster D := mkBc (Some zim) (cluster_new kd offset).
End Binding.

(** The bindings of a [ModifiableClusterWrapper] and of the cluster inside of it
    (cluster.py 740-751). *)
Record bwrapper := mkBw { bw_zim : binding; bw_inner : binding }.
Definition bwrap (inner : binding) : bwrapper := mkBw inner inner.
(** [ModifiableClusterWrapper.bind], 1333-1349. *)
Definition wrapper_bind (zim : nat) (w : bwrapper) : res unit * bwrapper :=
  match bind_to zim (bw_zim w) with
  | (Err e, z) => (Err e, mkBw z (bw_inner w))
  | (Ok _, z) =>
      if bound (bw_inner w) then (Ok tt, mkBw z (bw_inner w))
      else let '(r, i) := bind_to zim (bw_inner w) in (r, mkBw z i)
  end.
(** [ModifiableClusterWrapper.unbind], 1351-1354. *)
Definition wrapper_unbind (w : bwrapper) : bwrapper := mkBw (unbind (bw_zim w)) (unbind (bw_inner w)).

(** Calls of the wrapper, and of the cluster inside of it by whoever has it. *)
Inductive wcall := WBind (zim : nat) | WUnbind | IBind (zim : nat) | IUnbind.
Definition wcall_run (c : wcall) (w : bwrapper) : res unit * bwrapper :=
  match c with
  | WBind zim => wrapper_bind zim w
  | WUnbind => (Ok tt, wrapper_unbind w)
  | IBind zim => let '(r, i) := bind_to zim (bw_inner w) in (r, mkBw (bw_zim w) i)
  | IUnbind => (Ok tt, mkBw (bw_zim w) (unbind (bw_inner w)))
  end.
Definition wcalls (h : list wcall) (w : bwrapper) : bwrapper := fold_left (fun w c => snd (wcall_run c w)) h w.
