(** Model of [Counter], counter.py 12-245: its string form and its updates.
    Strings are lists of code points. *)
From Coq Require Import List ZArith Bool.
From Coq Require Import DecimalZ.
From Verif Require Import Base Utf8 Dict.
Import ListNotations.
Open Scope Z_scope.

Definition c_semi : Z := 59.
Definition c_eq : Z := 61.
Definition c_space : Z := 32.
Definition c_minus : Z := 45.
Definition c_plus : Z := 43.
Definition c_under : Z := 95.

(** [str.split(sep)] for a one character separator. *)
Fixpoint split_on (sep : Z) (s : ustr) : list ustr :=
  match s with
  | [] => [[]]
  | c :: r =>
      let p := split_on sep r in
      if c =? sep then [] :: p
      else match p with [] => [[c]] | x :: t => (c :: x) :: t end
  end.

(** [sep.join(parts)] for a one character separator. *)
Fixpoint join (sep : Z) (parts : list ustr) : ustr :=
  match parts with
  | [] => []
  | [x] => x
  | x :: r => x ++ sep :: join sep r
  end.

(** [s.startswith(" ")] *)
Definition starts_space (s : ustr) : bool := match s with c :: _ => c =? c_space | [] => false end.

(** [s.rsplit("=", 1)] unpacked into two names: the part before the last "="
    and the part after it; without "=" the unpacking raises ValueError. *)
Fixpoint rsplit_eq (s : ustr) : option (ustr * ustr) :=
  match s with
  | [] => None
  | c :: r =>
      match rsplit_eq r with
      | Some (a, b) => Some (c :: a, b)
      | None => if c =? c_eq then Some ([], r) else None
      end
  end.

(** [int(v)]: surrounding whitespace, an optional sign, decimal digits with
    single underscores between them.  Simplification: only ASCII digits and
    ASCII whitespace are recognised. *)
Definition is_ws (c : Z) : bool := (c =? 32) || ((9 <=? c) && (c <=? 13)) || ((28 <=? c) && (c <=? 31)).
Fixpoint lstrip (s : ustr) : ustr := match s with c :: r => if is_ws c then lstrip r else s | [] => [] end.
Definition strip (s : ustr) : ustr := rev (lstrip (rev (lstrip s))).
Definition digit_cons (c : Z) (u : Decimal.uint) : option Decimal.uint :=
  if c =? 48 then Some (Decimal.D0 u) else if c =? 49 then Some (Decimal.D1 u)
  else if c =? 50 then Some (Decimal.D2 u) else if c =? 51 then Some (Decimal.D3 u)
  else if c =? 52 then Some (Decimal.D4 u) else if c =? 53 then Some (Decimal.D5 u)
  else if c =? 54 then Some (Decimal.D6 u) else if c =? 55 then Some (Decimal.D7 u)
  else if c =? 56 then Some (Decimal.D8 u) else if c =? 57 then Some (Decimal.D9 u) else None.
Fixpoint digits (s : ustr) : option Decimal.uint :=
  match s with
  | [] => Some Decimal.Nil
  | c :: r =>
      if c =? c_under then None
      else
        match r with
        | u :: ((_ :: _) as r') =>
            if u =? c_under then match digits r' with Some x => digit_cons c x | None => None end
            else match digits r with Some x => digit_cons c x | None => None end
        | _ => match digits r with Some x => digit_cons c x | None => None end
        end
  end.
Definition py_int (s : ustr) : res Z :=
  let s := strip s in
  let '(neg, s) := match s with
                   | c :: r => if c =? c_minus then (true, r) else if c =? c_plus then (false, r) else (false, s)
                   | [] => (false, s)
                   end in
  match s, digits s with
  | _ :: _, Some u => Ok (Z.of_int (if neg then Decimal.Neg u else Decimal.Pos u))
  | _, _ => Err ValueError
  end.

(** ["{}".format(n)] for an integer. *)
Fixpoint uint_str (u : Decimal.uint) : ustr :=
  match u with
  | Decimal.Nil => []
  | Decimal.D0 u => 48 :: uint_str u | Decimal.D1 u => 49 :: uint_str u | Decimal.D2 u => 50 :: uint_str u
  | Decimal.D3 u => 51 :: uint_str u | Decimal.D4 u => 52 :: uint_str u | Decimal.D5 u => 53 :: uint_str u
  | Decimal.D6 u => 54 :: uint_str u | Decimal.D7 u => 55 :: uint_str u | Decimal.D8 u => 56 :: uint_str u
  | Decimal.D9 u => 57 :: uint_str u
  end.
Definition int_str (n : Z) : ustr :=
  match Z.to_int n with
  | Decimal.Pos u => uint_str u
  | Decimal.Neg u => c_minus :: uint_str u
  end.

Definition counts := list (ustr * Z).

(** [to_string], counter.py 126-139. *)
Definition to_string (c : counts) : ustr :=
  join c_semi (map (fun x => fst x ++ c_eq :: int_str (snd x)) (filter (fun x => negb (snd x =? 0)) c)).

(** Body of the loop of [from_string], 60-63, for one joined component. *)
Definition add_component (m_and_c : ustr) (acc : counts) : res counts :=
  match m_and_c with
  | [] => Ok acc
  | _ =>
      match rsplit_eq m_and_c with
      | None => Err ValueError
      | Some (mt, v) => do n <- py_int v ;; Ok (dset ueqb mt n acc)
      end
  end.
(** The two nested loops, 54-64: [cur] is [m_and_c], [rest] is [splitted[i+1:]]. *)
Fixpoint from_pieces (cur : ustr) (rest : list ustr) (acc : counts) : res counts :=
  match rest with
  | [] => add_component cur acc
  | p :: r =>
      if starts_space p then from_pieces (cur ++ c_semi :: p) r acc
      else do acc <- add_component cur acc ;; from_pieces p r acc
  end.
(** [from_string], 37-65, for a [str]; for [bytes] it is decoded first (49-50). *)
Definition from_string (s : ustr) : res counts :=
  match split_on c_semi s with
  | [] => Ok []
  | p :: r => from_pieces p r []
  end.
Definition from_bytes (s : bytes) : res counts := do u <- decode s ;; from_string u.

(** [increment_count], 141-155. *)
Definition increment (m : ustr) (c : counts) : counts :=
  match dget ueqb m c with Some n => dset ueqb m (n + 1) c | None => dset ueqb m 1 c end.
(** [decrement_count], 157-173. *)
Definition decrement (m : ustr) (c : counts) : res counts :=
  match dget ueqb m c with
  | None => Err ValueError
  | Some n => if n <=? 0 then Err ValueError else Ok (dset ueqb m (n - 1) c)
  end.
(** [get_count], 175-185. *)
Definition get_count (m : ustr) (c : counts) : Z := match dget ueqb m c with Some n => n | None => 0 end.

(** What the counter sees of an entry: [is_redirect], [namespace], [mimetype]. *)
Record centry := mkCentry { ce_redirect : bool; ce_ns : Z; ce_mime : ustr }.
(** [_should_count_entry], 187-196. *)
Definition should_count (e : centry) : bool := negb (ce_redirect e) && (ce_ns e =? 67).

(** [after_entry_write], 213-226; [old] is None when [is_new_entry].  The new
    counts are kept even if the decrement raises. *)
Definition after_write (old : option centry) (e : centry) (c : counts) : counts * res unit :=
  if should_count e then
    let c := increment (ce_mime e) c in
    match old with
    | None => (c, Ok tt)
    | Some o => match decrement (ce_mime o) c with
                | Ok c' => (c', Ok tt)
                | Err x => (c, Err x)
                end
    end
  else (c, Ok tt).
(** [after_entry_remove], 228-234. *)
Definition after_remove (e : centry) (c : counts) : counts * res unit :=
  if should_count e then
    match decrement (ce_mime e) c with Ok c' => (c', Ok tt) | Err x => (c, Err x) end
  else (c, Ok tt).

(** [load_from_archive(how="reinit")], 113-122, over the entries of the archive. *)
Definition reinit (entries : list centry) : counts :=
  fold_left (fun c e => if should_count e then increment (ce_mime e) c else c) entries [].

(** What happens to the entries of an archive, as reported to the counter by
    [write_entry] (archive.py 1315-1448) and [remove_entry_by_full_url]
    (1146-1153).  An update passes as [old_entry] whatever [get_entry_at]
    returns (1326): the very entry object being written if that object came
    from the entry cache ([from_cache = true]), a freshly read one otherwise. *)
Inductive cevent :=
| EvNew (e : centry)
| EvUpdate (i : nat) (e : centry) (from_cache : bool)
| EvRemove (i : nat).

Fixpoint set_nth {A} (i : nat) (x : A) (l : list A) : list A :=
  match l, i with
  | [], _ => []
  | _ :: r, O => x :: r
  | y :: r, S j => y :: set_nth j x r
  end.
Fixpoint del_nth {A} (i : nat) (l : list A) : list A :=
  match l, i with
  | [], _ => []
  | _ :: r, O => r
  | y :: r, S j => y :: del_nth j r
  end.

(** One event: the entries of the archive, the counts and what the counter's
    callback raised.  [None]: there is no such entry. *)
Definition cev_step (ev : cevent) (w : list centry) (c : counts) : option (list centry * counts * res unit) :=
  match ev with
  | EvNew e => let '(c', r) := after_write None e c in Some (w ++ [e], c', r)
  | EvUpdate i e cached =>
      match nth_error w i with
      | None => None
      | Some o => let '(c', r) := after_write (Some (if cached : bool then e else o)) e c in Some (set_nth i e w, c', r)
      end
  | EvRemove i =>
      match nth_error w i with
      | None => None
      | Some o => let '(c', r) := after_remove o c in Some (del_nth i w, c', r)
      end
  end.
Fixpoint cev_run (evs : list cevent) (w : list centry) (c : counts) : option (list centry * counts * res unit) :=
  match evs with
  | [] => Some (w, c, Ok tt)
  | ev :: r =>
      match cev_step ev w c with
      | None => None
      | Some (w', c', Ok _) => cev_run r w' c'
      | Some (w', c', Err x) => Some (w', c', Err x)
      end
  end.
