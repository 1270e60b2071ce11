(** Model of the title search in pyzim/search.py. *)
From Coq Require Import List ZArith Bool.
From Verif Require Import Base Utf8 Entry PointerList Archive.
Import ListNotations.
Open Scope Z_scope.

(** [TitleStartSearch.__init__], 219-236: the list to search in, as its key
    function and its pointers. *)
Record searcher := mkSearcher { sr_zim : zim; sr_key : Z -> res bytes; sr_ptrs : list Z }.
Definition new_search (s : zim) (search_nonarticles : bool) : res searcher :=
  if search_nonarticles
  then match z_etpl s with
       | None => Err ZimFeatureMissing
       | Some t => Ok (mkSearcher s (nstitle_key s) (pl_ptrs t))
       end
  else Ok (mkSearcher s (title_key s) (pl_ptrs (z_atpl s))).

(** [term[:-1] + chr(ord(term[-1]) + 1)], 242 and 252; the term is not empty here. *)
Definition next_term (term : ustr) : res ustr :=
  match rev term with
  | [] => Err IndexError
  | c :: r => if c + 1 <? 1114112 then Ok (rev r ++ [c + 1]) else Err ValueError
  end.

(** 250-256: the range of positions with a matching title. *)
Definition match_range (sr : searcher) (term : ustr) : res (Z * Z) :=
  match term with
  | [] => Ok (0, zlen (sr_ptrs sr))
  | _ :: _ =>
      do k <- encode term ;;
      do first <- find_first_ge (sr_key sr) (sr_ptrs sr) k ;;
      do next <- next_term term ;;
      do k' <- encode next ;;
      do end_ <- find_first_ge (sr_key sr) (sr_ptrs sr) k' ;;
      Ok (first, end_)
  end.

(** [search], 238-247: the number of results reported. *)
Definition n_estimated (sr : searcher) (term : ustr) : res Z :=
  do fe <- match_range sr term ;; Ok (snd fe - fst fe).

(** [SearchResult], 30-72.  The likelihood is the quotient of the two numbers. *)
Record result := mkResult { r_number : Z; r_likelihood : Z * Z; r_url : ustr; r_title : ustr }.

(** The assertions 59-63, with the likelihood computed in 264-267: for an
    empty title it is the integer 0, which is not a float.  A quotient of
    lengths is at most 1 as a float iff it is at most 1, for lengths below 2^53. *)
Definition new_result (number : Z) (term : ustr) (e : entry) : res result :=
  if negb (1 <=? number) then Err AssertionError
  else if zlen (title e) =? 0 then Err AssertionError
  else if zlen (title e) <? zlen term then Err AssertionError
  else match full_url e with
       | [] => Err AssertionError
       | _ :: _ => Ok (mkResult number (zlen term, zlen (title e)) (full_url e) (title e))
       end.

(** [search_in_range], 249-277. *)
Definition search_in_range (sr : searcher) (term : ustr) (start : option Z) (n : Z) : res (list result) :=
  do fe <- match_range sr term ;;
  match start with
  | None => Err TypeError
  | Some start =>
      let start_pos := fst fe + (start - 1) in
      let max_n := Z.min n (snd fe - start_pos) in
      iter_range (fun i =>
        do p <- get_by_index (sr_ptrs sr) i ;;
        do e <- get_entry_by_url_index (sr_zim sr) p ;;
        new_result (i - start_pos + 1) term e) start_pos (Z.to_nat max_n)
  end.

(** [SearchResultSet.__iter__], 106-121, run to its end; [page] is the default
    20 of [search_in_range], [fuel] bounds the number of pages. *)
Definition PAGE : Z := 20.
Fixpoint iter_results (fuel : nat) (sr : searcher) (term : ustr) (cur_pos : Z) : res (list result) :=
  match fuel with
  | O => Err Diverge
  | S fuel' =>
      do rs <- search_in_range sr term (Some cur_pos) PAGE ;;
      match rs with
      | [] => Ok []
      | _ :: _ => do more <- iter_results fuel' sr term (cur_pos + zlen rs) ;; Ok (rs ++ more)
      end
  end.
Definition iter_all_results (fuel : nat) (sr : searcher) (term : ustr) : res (list result) := iter_results fuel sr term 1.

(** [iter_in_range], 123-143. *)
Fixpoint range_loop (fuel : nat) (sr : searcher) (term : ustr) (cur_pos stop n : Z) : res (list result) :=
  match fuel with
  | O => Err Diverge
  | S fuel' =>
      if cur_pos <? stop then
        do rs <- search_in_range sr term (Some cur_pos) n ;;
        match rs with
        | [] => Ok []
        | _ :: _ => do more <- range_loop fuel' sr term (cur_pos + zlen rs) stop n ;; Ok (rs ++ more)
        end
      else Ok []
  end.
Definition iter_in_range (fuel : nat) (sr : searcher) (term : ustr) (start n : Z) : res (list result) :=
  range_loop fuel sr term start (start + n) n.
