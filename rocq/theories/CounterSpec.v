(** What the counter properties say, independently of counter.py. *)
From Coq Require Import List ZArith Bool.
From Verif Require Import Base Utf8 Counter.
Import ListNotations.
Open Scope Z_scope.

(** The counts that matter: mimetype and non-zero number. *)
Definition nonzero (c : counts) : counts := filter (fun x => negb (snd x =? 0)) c.

(** A mimetype every ';' of which is followed by a space, that does not start
    with a space: 'text/html', 'text/html; charset=utf-8' but not
    'text/html;charset=utf-8'. *)
Fixpoint semis_ok (s : ustr) : Prop :=
  match s with
  | [] => True
  | c :: r => (c = 59 -> exists r', r = 32 :: r') /\ semis_ok r
  end.
Definition safe_mime (s : ustr) : Prop := semis_ok s /\ (forall r, s <> 32 :: r).

(** A counter is a dict: no mimetype twice. *)
Definition counter_wf (c : counts) : Prop := NoDup (map fst c).

(** Number of content entries of a mimetype. *)
Definition content_of (m : ustr) (e : centry) : bool :=
  negb (ce_redirect e) && (ce_ns e =? 67) && ueqb (ce_mime e) m.
Fixpoint number_of (m : ustr) (w : list centry) : Z :=
  match w with [] => 0 | e :: r => (if content_of m e then 1 else 0) + number_of m r end.
(** Is the entry a content entry at all? *)
Definition is_content (e : centry) : bool := negb (ce_redirect e) && (ce_ns e =? 67).

(** Updates the counter copes with: they neither make an entry a content entry
    nor stop it being one; and if the counter is shown the new entry in place
    of the old one, the mimetype stays. *)
Definition gentle (ev : cevent) (w : list centry) : Prop :=
  match ev with
  | EvUpdate i e cached =>
      forall o, nth_error w i = Some o ->
        is_content e = is_content o /\ (cached = true -> is_content e = true -> ce_mime e = ce_mime o)
  | _ => True
  end.
Fixpoint gentle_run (evs : list cevent) (w : list centry) : Prop :=
  match evs with
  | [] => True
  | ev :: r =>
      gentle ev w /\
      gentle_run r (match ev with
                    | EvNew e => w ++ [e]
                    | EvUpdate i e _ => set_nth i e w
                    | EvRemove i => del_nth i w
                    end)
  end.
