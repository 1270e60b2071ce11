(** The constructor of a policy, policy.py 71-201, and the use that an archive makes of
    its classes, archive.py 128-143 and 227-252, for C104. *)
From Coq Require Import List ZArith Bool.
From Coq Require Import String.
From Verif Require Import Base.
Import ListNotations.
Open Scope Z_scope.
Open Scope string_scope.

(** The classes that [issubclass] is asked about (132-177). *)
Inductive base := BCluster | BSimple | BOrdered | BTitle | BCache | BStrategy.
Definition base_eqb (a b : base) : bool :=
  match a, b with
  | BCluster, BCluster | BSimple, BSimple | BOrdered, BOrdered | BTitle, BTitle
  | BCache, BCache | BStrategy, BStrategy => true
  | _, _ => false
  end.
(** A class: its name, those of the classes above that it is a subclass of, the
    parameters of its constructor and those of them that have no default. *)
Record cls := mkcls { c_name : string; c_bases : list base; c_params : list string; c_required : list string }.
Definition issubclass (c : cls) (b : base) : bool := existsb (base_eqb b) (c_bases c).

(** The classes of the library: cluster.py 15, 521, 556; pointerlist.py 53, 385, 694, 707, 785, 834;
    cache.py (on_leave and the sizes, 32, 406, 512, 652); compressionstrategy.py 94, 196.
    Clusters and pointer lists are not built from the keywords of a policy: their
    parameters are left out. *)
Definition Cluster := mkcls "Cluster" [BCluster] [] [].
Definition OffsetRememberingCluster := mkcls "OffsetRememberingCluster" [BCluster] [] [].
Definition InMemoryCluster := mkcls "InMemoryCluster" [BCluster] [] [].
Definition SimplePointerList := mkcls "SimplePointerList" [BSimple] [] [].
Definition OrderedPointerList := mkcls "OrderedPointerList" [BSimple; BOrdered] [] [].
Definition TitlePointerList := mkcls "TitlePointerList" [BSimple; BOrdered; BTitle] [] [].
Definition OnDiskSimplePointerList := mkcls "OnDiskSimplePointerList" [BSimple] [] [].
Definition OnDiskOrderedPointerList := mkcls "OnDiskOrderedPointerList" [BSimple; BOrdered] [] [].
Definition OnDiskTitlePointerList := mkcls "OnDiskTitlePointerList" [BSimple; BOrdered; BTitle] [] [].
Definition NoOpCache := mkcls "NoOpCache" [BCache] ["on_leave"] [].
Definition LastAccessCache := mkcls "LastAccessCache" [BCache] ["on_leave"; "max_size"] [].
Definition TopAccessCache := mkcls "TopAccessCache" [BCache] ["on_leave"; "max_size"] [].
Definition HybridCache := mkcls "HybridCache" [BCache] ["on_leave"; "last_cache_size"; "top_cache_size"] [].
Definition SimpleCompressionStrategy :=
  mkcls "SimpleCompressionStrategy" [BStrategy] ["zim"; "compression_type"; "max_size"] ["zim"; "compression_type"].
Definition MimetypeBasedCompressionStrategy :=
  mkcls "MimetypeBasedCompressionStrategy" [BStrategy] ["zim"; "cs_class"; "cs_kwargs"] ["zim"].

(** Keyword arguments: a dictionary; the values are opaque. *)
Definition kwargs := list (string * Z).
Definition has_key (k : string) (d : kwargs) : bool := existsb (fun x => String.eqb k (fst x)) d.

(** The arguments of the constructor (71-90); [None] where the default is [None].
    That dictionaries, the counter and the number are of the right type is given by
    the types, which leaves the [isinstance] tests (129, 149, 157, 168, 180) out. *)
Record args := mkargs {
  a_options : kwargs; a_cluster : option cls; a_simple : option cls; a_ordered : option cls; a_title : option cls;
  a_ecache : option cls; a_ecache_kw : option kwargs; a_ccache : option cls; a_ccache_kw : option kwargs;
  a_strategy : option cls; a_strategy_kw : option kwargs; a_ustrategy : option cls; a_ustrategy_kw : option kwargs;
  a_autoflush : bool; a_truncate : bool; a_reserve : option Z; a_counter : string }.
(** The policy (185-201). *)
Record policy := mkpolicy {
  p_options : kwargs; p_cluster : cls; p_simple : cls; p_ordered : cls; p_title : cls;
  p_ecache : cls; p_ecache_kw : kwargs; p_ccache : cls; p_ccache_kw : kwargs;
  p_strategy : cls; p_strategy_kw : kwargs; p_ustrategy : cls; p_ustrategy_kw : kwargs;
  p_autoflush : bool; p_truncate : bool; p_reserve : option Z; p_counter : string }.

Definition default {A} (d : A) (o : option A) : A := match o with Some x => x | None => d end.
Definition check (b : bool) : res unit := if b then Ok tt else Err AssertionError.
(** CompressionType.ZSTD (constants.py 71) and CompressionType.NONE, compression.py. *)
Definition ZSTD := 5.
Definition NONE := 1.

(** [Policy.__init__] (129-201). *)
Definition policy_init (a : args) : res policy :=
  let cluster := default OffsetRememberingCluster (a_cluster a) in
  do _ <- check (issubclass cluster BCluster) ;;
  let simple := default SimplePointerList (a_simple a) in
  do _ <- check (issubclass simple BSimple) ;;
  let ordered := default OrderedPointerList (a_ordered a) in
  do _ <- check (issubclass ordered BOrdered) ;;
  let title := default TitlePointerList (a_title a) in
  do _ <- check (issubclass title BTitle) ;;
  let ecache := default NoOpCache (a_ecache a) in
  let ecache_kw := default [] (a_ecache_kw a) in
  do _ <- check (issubclass ecache BCache) ;;
  let ccache := default LastAccessCache (a_ccache a) in
  let ccache_kw := default (match a_ccache a with None => [("max_size", 2)] | Some _ => [] end) (a_ccache_kw a) in
  do _ <- check (issubclass ccache BCache) ;;
  let strategy := default SimpleCompressionStrategy (a_strategy a) in
  let strategy_kw := default (match a_strategy a with None => [("compression_type", ZSTD)] | Some _ => [] end) (a_strategy_kw a) in
  do _ <- check (issubclass strategy BStrategy) ;;
  do _ <- check (negb (has_key "zim" strategy_kw)) ;;
  let ustrategy := default SimpleCompressionStrategy (a_ustrategy a) in
  let ustrategy_kw := default (match a_ustrategy a with None => [("compression_type", NONE)] | Some _ => [] end) (a_ustrategy_kw a) in
  do _ <- check (issubclass ustrategy BStrategy) ;;
  (* line 181 asks about the other dictionary again *)
  do _ <- check (negb (has_key "zim" strategy_kw)) ;;
  do _ <- check (match a_reserve a with None => true | Some n => (2 <? n)%Z end) ;;
  do _ <- check (existsb (String.eqb (a_counter a)) ["load"; "ignore"; "reinit"; "load_or_reinit"]) ;;
  Ok (mkpolicy (a_options a) cluster simple ordered title ecache ecache_kw ccache ccache_kw
        strategy strategy_kw ustrategy ustrategy_kw (a_autoflush a) (a_truncate a) (a_reserve a) (a_counter a)).

(** The call [c(own=..., **kw)]: TypeError for a keyword that is given twice, for one that the
    class does not have and for one that is missing.  What the constructors do with
    the values is not modelled here. *)
Definition call (c : cls) (own : string) (kw : kwargs) : res unit :=
  if has_key own kw then Err TypeError
  else if negb (forallb (fun k => existsb (String.eqb k) (c_params c)) (own :: map fst kw)) then Err TypeError
  else if negb (forallb (fun k => existsb (String.eqb k) (own :: map fst kw)) (c_required c)) then Err TypeError
  else Ok tt.

(** [_init_caches] (archive.py 227-252) and the strategies of an archive that is writable
    (130-143). *)
Definition init_parts (p : policy) (writable : bool) : res unit :=
  do _ <- call (p_ccache p) "on_leave" (p_ccache_kw p) ;;
  do _ <- call (p_ecache p) "on_leave" (p_ecache_kw p) ;;
  if writable then
    do _ <- call (p_strategy p) "zim" (p_strategy_kw p) ;;
    call (p_ustrategy p) "zim" (p_ustrategy_kw p)
  else Ok tt.

(** No arguments (71-90) and the policies of the module (204-231); the value of
    "general.target" is the number of the member of CompressionTarget, opaque here. *)
Definition no_args : args :=
  mkargs [] None None None None None None None None None None None None true false (Some 2048) "load_or_reinit".
Definition low_ram_args : args :=
  mkargs [("general.target", 1)] (Some Cluster) (Some OnDiskSimplePointerList) (Some OnDiskOrderedPointerList)
    (Some OnDiskTitlePointerList) (Some NoOpCache) None (Some NoOpCache) None None None None None true false (Some 2048) "load_or_reinit".
Definition high_performance_args : args :=
  mkargs [("general.target", 2)] (Some InMemoryCluster) None None None
    (Some HybridCache) (Some [("last_cache_size", 8); ("top_cache_size", 128)])
    (Some HybridCache) (Some [("last_cache_size", 8); ("top_cache_size", 8)])
    None None None None true false (Some 2048) "load_or_reinit".
