(** What processors are told of redirects (C99): the hook [on_add_redirect] of
    [add_full_url_redirect], archive.py 1540-1542; processor.py 59-70.

    The functions are those of OperationBuffer.v with this hook.  Simplifications:
    those of OperationBuffer.v.  The processors are observers: they do not change
    the entry and nothing that they do fails. *)
From Coq Require Import List ZArith Bool.
From Verif Require Import Base Utf8 Entry PointerList Cluster Archive OperationBuffer.
Import ListNotations.
Open Scope Z_scope.

(** One call of [on_add_redirect(entry=entry)]: the archive that the processor
    sees at that time, and the entry. *)
Definition rnotice := (zim * entry)%type.

(** [add_full_url_redirect], archive.py 1484-1544: nothing is told of a redirect
    that is refused or buffered (1519-1528); the others are told (1541-1542) before
    they are written (1544). *)
Definition add_redirect_t (fuel : nat) (r : rop) (o : buffered) : res unit * buffered * list rnotice :=
  let '(source, target, ttl) := r in
  match make_redirect (b_zim o) source target ttl with
  | Err x => (Err x, o, [])
  | Ok None => (buffer_add_redirect r o, [])
  | Ok (Some e) => let '(x, z) := write_entry fuel (fresh e) (b_zim o) in (x, b_set_zim z o, [(b_zim o, e)])
  end.

(** operationbuffer.py 80-81 *)
Fixpoint add_redirects_t (fuel : nat) (l : list rop) (o : buffered) : res unit * buffered * list rnotice :=
  match l with
  | [] => (Ok tt, o, [])
  | r :: l' =>
      match add_redirect_t fuel r o with
      | (Err x, o, n) => (Err x, o, n)
      | (Ok _, o, n) => let '(st, n') := add_redirects_t fuel l' o in (st, n ++ n')
      end
  end.
(** 76-82 *)
Fixpoint apply_loop_t (rounds fuel : nat) (o : buffered) : res unit * buffered * list rnotice :=
  match rounds with
  | O => (Err Diverge, o, [])
  | S rounds' =>
      let todo := b_redirects o in
      match add_redirects_t fuel todo (b_set_redirects [] o) with
      | (Err x, o, n) => (Err x, o, n)
      | (Ok _, o, n) =>
          if rops_eqb (b_redirects o) todo then (Ok tt, o, n)
          else let '(st, n') := apply_loop_t rounds' fuel o in (st, n ++ n')
      end
  end.
(** [_apply_redirects], 64-86. *)
Definition apply_redirects_t (rounds fuel : nat) (o : buffered) : res unit * buffered * list rnotice :=
  match apply_loop_t rounds fuel o with
  | (Err x, o, n) => (Err x, o, n)
  | (Ok _, o, n) => (match b_redirects o with [] => Ok tt | _ :: _ => Err UnresolvedRedirect end, o, n)
  end.
