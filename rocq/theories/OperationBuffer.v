(** Model of pyzim/operationbuffer.py and of the calls in archive.py that use it
    (add_full_url_redirect 1484-1544, set_mainpage_url 988-1033). *)
From Coq Require Import List ZArith Bool.
From Verif Require Import Base Utf8 Entry PointerList Cluster Archive.
Import ListNotations.
Open Scope Z_scope.

(** A buffered redirect: source full url, target full url, title (21-22). *)
Definition rop := (ustr * ustr * option ustr)%type.

(** The archive and the attributes of its buffer, 33-35: [_buffered_redirects]
    and [_buffered_mainpage_url], where the outer [None] is [False]. *)
Record buffered := mkBuffered { b_zim : zim; b_redirects : list rop; b_main : option (option ustr) }.
Definition b_set_zim z (o : buffered) := mkBuffered z (b_redirects o) (b_main o).
Definition b_set_redirects l (o : buffered) := mkBuffered (b_zim o) l (b_main o).
Definition b_set_main m (o : buffered) := mkBuffered (b_zim o) (b_redirects o) m.

(** A call that only concerns the archive. *)
Definition lift {A} (m : M zim A) : M buffered A := fun o => let (r, z) := m (b_zim o) in (r, b_set_zim z o).

(** [buffer_add_redirect], 48-62, and [buffer_set_mainpage_url], 88-100. *)
Definition buffer_add_redirect (r : rop) : M buffered unit := fun o => (Ok tt, b_set_redirects (b_redirects o ++ [r]) o).
Definition buffer_set_mainpage_url (u : option ustr) : M buffered unit := fun o => (Ok tt, b_set_main (Some u) o).

(** [self.zim.add_full_url_redirect(source, target, title=title)], archive.py
    1484-1544; [fuel] bounds the recursion of [write_entry]. *)
Definition add_redirect (fuel : nat) (r : rop) : M buffered unit :=
  let '(source, target, ttl) := r in
  let* written := lift (add_full_url_redirect fuel source target ttl) in
  if (written : bool) then ret tt else buffer_add_redirect r.

(** [self._buffered_redirects != redirects_to_write] *)
Definition opt_ueqb (a b : option ustr) : bool :=
  match a, b with Some x, Some y => ueqb x y | None, None => true | _, _ => false end.
Definition rop_eqb (a b : rop) : bool :=
  let '(s, t, l) := a in let '(s', t', l') := b in ueqb s s' && ueqb t t' && opt_ueqb l l'.
Fixpoint rops_eqb (a b : list rop) : bool :=
  match a, b with
  | [], [] => true
  | x :: a', y :: b' => rop_eqb x y && rops_eqb a' b'
  | _, _ => false
  end.

(** The loop 80-81. *)
Fixpoint add_redirects (fuel : nat) (l : list rop) : M buffered unit :=
  match l with
  | [] => ret tt
  | r :: l' => let* _ := add_redirect fuel r in add_redirects fuel l'
  end.

(** The loop 76-82; [rounds] bounds the number of iterations. *)
Fixpoint apply_loop (rounds fuel : nat) : M buffered unit :=
  match rounds with
  | O => raise Diverge
  | S rounds' => fun o =>
      let todo := b_redirects o in
      (let* _ := add_redirects fuel todo in
       fun o => if rops_eqb (b_redirects o) todo then (Ok tt, o) else apply_loop rounds' fuel o)
      (b_set_redirects [] o)
  end.

(** [_apply_redirects], 64-86. *)
Definition apply_redirects (rounds fuel : nat) : M buffered unit :=
  let* _ := apply_loop rounds fuel in
  fun o => match b_redirects o with [] => (Ok tt, o) | _ :: _ => (Err UnresolvedRedirect, o) end.

Section Main.
Variable process_blob : entry -> M zim unit.   (* see [remove_entry] *)

(** [set_mainpage_url], archive.py 988-1033. *)
Definition set_mainpage (fuel : nat) (url : option ustr) : M buffered unit :=
  let* _ := lift (fun s => match remove_entry process_blob fuel URL_MAINPAGE_REDIRECT s with
                           | (Err EntryNotFound, s') => (Ok tt, s')
                           | r => r
                           end) in
  match url with
  | None =>
      let* _ := lift (update (fun s => Ok (set_main None s))) in
      buffer_set_mainpage_url None
  | Some u =>
      let* _ := add_redirect fuel (URL_MAINPAGE_REDIRECT, NS_C ++ u, None) in
      fun o => match url_index (b_zim o) URL_MAINPAGE_REDIRECT with
               | Ok i => (Ok tt, b_set_zim (set_main (Some i) (b_zim o)) o)
               | Err KeyError => buffer_set_mainpage_url (Some u) o
               | Err x => (Err x, o)
               end
  end.

(** [_apply_set_mainpage_url], 102-119. *)
Definition apply_set_mainpage_url (fuel : nat) : M buffered unit := fun o =>
  match b_main o with
  | None => (Ok tt, o)
  | Some url =>
      (let* _ := set_mainpage fuel url in
       fun o => match b_main o with Some (Some _) => (Err UnresolvedRedirect, o) | _ => (Ok tt, o) end)
      (b_set_main None o)
  end.

(** [finalize_entry_dependent_operations], 37-46. *)
Definition finalize (rounds fuel : nat) : M buffered unit :=
  let* _ := apply_redirects rounds fuel in apply_set_mainpage_url fuel.
End Main.
