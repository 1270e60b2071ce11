(** Model of what [XapianSearch] does with the matches of its database
    (pyzim/search.py 388-427) and of result sets over it (106-143).  Where the
    database is opened is the subject of SearchIndex.v. *)
From Coq Require Import List ZArith Bool.
From Verif Require Import Base Utf8 Entry PointerList Archive Search.
Import ListNotations.
Open Scope Z_scope.

(** A matching document: [m.document.get_data()] and [m.percent]. *)
Record document := mkDocument { d_data : bytes; d_percent : Z }.
(** [SearchResult], 30-72, with the likelihood in percent. *)
Record hit := mkHit { h_number : Z; h_percent : Z; h_url : ustr; h_title : ustr }.

Section Xapian.
Variable s : zim.
(** The documents that match a term, the best first.  Xapian is a parameter. *)
Variable matching : ustr -> list document.

Fixpoint ranked (rank : Z) (l : list document) : list (Z * document) :=
  match l with [] => [] | d :: r => (rank, d) :: ranked (rank + 1) r end.
(** [enquire.get_mset(first, maxitems)]: both are unsigned, [rank] counts all
    matches from 0 on. *)
Definition get_mset (term : ustr) (first maxitems : Z) : res (list (Z * document)) :=
  if (first <? 0) || (maxitems <? 0) then Err OverflowErr
  else Ok (ranked first (ztake maxitems (zskip first (matching term)))).

(** The assertions 59-63. *)
Definition new_hit (number percent : Z) (url title : ustr) : res hit :=
  if negb (1 <=? number) then Err AssertionError
  else if negb ((0 <=? percent) && (percent <=? 100)) then Err AssertionError
  else match url with [] => Err AssertionError | _ :: _ => Ok (mkHit number percent url title) end.

(** The body of the loop, 413-425: the character behind the namespace is left
    out. *)
Definition hit_of (m : Z * document) : res hit :=
  do u <- decode (d_data (snd m)) ;;
  match u with
  | [] => Err IndexError
  | c :: r =>
      let full_url := c :: skipn 1 r in
      do e <- get_entry_by_full_url s full_url ;;
      new_hit (fst m + 1) (d_percent (snd m)) full_url (title e)
  end.
Fixpoint hits_of (l : list (Z * document)) : res (list hit) :=
  match l with
  | [] => Ok []
  | m :: r => do h <- hit_of m ;; do hs <- hits_of r ;; Ok (h :: hs)
  end.
(** [search_in_range], 404-427. *)
Definition xsearch_in_range (term : ustr) (start : option Z) (n : Z) : res (list hit) :=
  let start := match start with None => 1 | Some v => v end in
  do ms <- get_mset term (start - 1) n ;; hits_of ms.

(** [SearchResultSet.__iter__], 106-121, run to its end; [fuel] bounds the number
    of pages. *)
Fixpoint xiter (fuel : nat) (term : ustr) (cur_pos : Z) : res (list hit) :=
  match fuel with
  | O => Err Diverge
  | S fuel' =>
      do rs <- xsearch_in_range term (Some cur_pos) PAGE ;;
      match rs with
      | [] => Ok []
      | _ :: _ => do more <- xiter fuel' term (cur_pos + zlen rs) ;; Ok (rs ++ more)
      end
  end.
Definition xiter_all (fuel : nat) (term : ustr) : res (list hit) := xiter fuel term 1.
(** [iter_in_range], 123-143. *)
Fixpoint xrange_loop (fuel : nat) (term : ustr) (cur_pos stop n : Z) : res (list hit) :=
  match fuel with
  | O => Err Diverge
  | S fuel' =>
      if cur_pos <? stop then
        do rs <- xsearch_in_range term (Some cur_pos) n ;;
        match rs with
        | [] => Ok []
        | _ :: _ => do more <- xrange_loop fuel' term (cur_pos + zlen rs) stop n ;; Ok (rs ++ more)
        end
      else Ok []
  end.
Definition xiter_in_range (fuel : nat) (term : ustr) (start n : Z) : res (list hit) :=
  xrange_loop fuel term start (start + n) n.
End Xapian.
