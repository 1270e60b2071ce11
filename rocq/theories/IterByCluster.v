(** Model of pyzim/util/iter.py. *)
From Coq Require Import List ZArith Bool.
From Verif Require Import Base Utf8 Entry PointerList Archive.
Import ListNotations.
Open Scope Z_scope.

(** The dict [cluster_num2urls] (32), in insertion order. *)
Definition groups := list (Z * list (Z * ustr)).
Fixpoint lookup (k : Z) (d : groups) : option (list (Z * ustr)) :=
  match d with
  | [] => None
  | (k', v) :: d' => if k' =? k then Some v else lookup k d'
  end.

(** 42-44: start the group if the cluster is new, then append to it. *)
Fixpoint append_to (k : Z) (x : Z * ustr) (d : groups) : groups :=
  match d with
  | [] => [(k, [x])]
  | (k', v) :: d' => if k' =? k then (k', v ++ [x]) :: d' else (k', v) :: append_to k x d'
  end.

(** The loop body 35-44.  A redirect has the attributes of a content entry only
    if the entry was constructed inconsistently; reading them raises AttributeError. *)
Definition group_entry (d : groups) (e : entry) : res groups :=
  if is_redirect e then Ok (append_to (-1) (-1, full_url e) d)
  else match e_kind e with
       | Content c b => Ok (append_to c (b, full_url e) d)
       | Redirect _ => Err AttributeError
       end.
Fixpoint group_entries (d : groups) (l : list entry) : res groups :=
  match l with
  | [] => Ok d
  | e :: l' => do d' <- group_entry d e ;; group_entries d' l'
  end.

(** [sorted], on a list of distinct or equal but indistinguishable elements:
    insertion sort. *)
Fixpoint insert {A} (ltb : A -> A -> bool) (x : A) (l : list A) : list A :=
  match l with
  | [] => [x]
  | y :: l' => if ltb y x then y :: insert ltb x l' else x :: l
  end.
Fixpoint sorted {A} (ltb : A -> A -> bool) (l : list A) : list A :=
  match l with
  | [] => []
  | x :: l' => insert ltb x (sorted ltb l')
  end.

(** Comparison of tuples [(blob_num, url)]. *)
Definition pair_ltb (x y : Z * ustr) : bool :=
  (fst x <? fst y) || ((fst x =? fst y) && ultb (snd x) (snd y)).

(** The loop 47-53: the tuples yielded. *)
Fixpoint yield_clusters (d : groups) (nums : list Z) : res (list (list ustr)) :=
  match nums with
  | [] => Ok []
  | c :: nums' =>
      if c =? -1 then yield_clusters d nums'
      else match lookup c d with
           | None => Err KeyError
           | Some v => do r <- yield_clusters d nums' ;; Ok (map snd (sorted pair_ltb v) :: r)
           end
  end.

(** [iter_by_cluster], 7-55, consumed until it is exhausted or raises: the
    tuples yielded before that, and how it ended. *)
Definition iter_by_cluster (s : zim) : list (list ustr) * res unit :=
  match (do l <- iter_entries s None None ;;
         do d <- group_entries [] l ;;
         do r <- yield_clusters d (sorted Z.ltb (map fst d)) ;; Ok (d, r)) with
  | Err x => ([], Err x)
  | Ok (d, r) => match lookup (-1) d with
                 | Some v => (r ++ [map snd v], Ok tt)
                 | None => (r, Err KeyError)
                 end
  end.
