(** Model of the serialisation part of pyzim/entry.py and of
    pyzim/util/ioutil.py. *)
From Coq Require Import List ZArith Bool.
From Verif Require Import Base Utf8.
Import ListNotations.
Open Scope Z_scope.

(** ** util/ioutil.py *)

(** [read_until_zero], ioutil.py 6-31, on the rest [f] of a file: the loop
    reads one byte per iteration.  At end of file [f.read(1)] returns [b""],
    which is not a zero byte, so the loop goes on without making progress.
    [fuel] bounds the number of iterations. *)
Fixpoint ruz_loop (fuel : nat) (f s : bytes) : res (bytes * bytes) :=
  match fuel with
  | O => Err Diverge
  | S fuel' =>
      match f with
      | [] => ruz_loop fuel' [] s              (* c == b"": s += b"" *)
      | c :: r => if Byte.eqb c x00 then Ok (s, r) else ruz_loop fuel' r (s ++ [c])
      end
  end.

(** The same function with as much fuel as any terminating run can use
    (theorem [ruz_loop_fuel] in EntryProofs justifies the choice). *)
Definition read_until_zero (f : bytes) : res (bytes * bytes) :=
  ruz_loop (S (length f)) f [].

(** ** entry.py *)

(** ContentEntry (566-602) and RedirectEntry (873-902) differ in these attributes. *)
Inductive ekind :=
| Content (cluster_number blob_number : Z)
| Redirect (redirect_index : Z).

(** entry.py 50-93.  [revision] is 0 and [parameters] is [[]] in every
    constructed entry (assertions 77, 80), so they are not represented.
    [e_title] is the private attribute [_title] ([None] possible). *)
Record entry := mkEntry {
  e_mimetype : Z; e_ns : ustr; e_url : ustr; e_title : option ustr; e_kind : ekind }.

Definition MIMETYPE_ID_REDIRECT : Z := 65535.

(** [BaseEntry.is_redirect], 313-320. *)
Definition is_redirect (e : entry) : bool := e_mimetype e =? MIMETYPE_ID_REDIRECT.

(** [BaseEntry.title], 238-249: falls back to the url. *)
Definition title (e : entry) : ustr :=
  match e_title e with
  | Some (c :: t) => c :: t
  | _ => e_url e
  end.

(** [BaseEntry.full_url], 323-330. *)
Definition full_url (e : entry) : ustr := e_ns e ++ e_url e.

(** [struct.pack("c", b)] *)
Definition pack_char (b : bytes) : res bytes :=
  match b with [x] => Ok [x] | _ => Err StructError end.

(** [ContentEntry.to_bytes] (720-733) and [RedirectEntry.to_bytes] (991-1003);
    formats "<HBcIII" and "<HBcII", parameter length and revision are 0. *)
Definition entry_to_bytes (e : entry) : res bytes :=
  do nsb <- encode (e_ns e) ;;
  do mt <- pack_le 2 (e_mimetype e) ;;
  do ns <- pack_char nsb ;;
  do tail <- match e_kind e with
             | Content c b => do x <- pack_le 4 c ;; do y <- pack_le 4 b ;; Ok (x ++ y)
             | Redirect i => pack_le 4 i
             end ;;
  do url <- encode (e_url e) ;;
  do ttl <- match e_title e with None => Err AttributeError | Some t => encode t end ;;
  Ok (mt ++ [x00] ++ ns ++ le_bytes 4 0 ++ tail ++ url ++ [x00] ++ ttl ++ [x00]).

(** [get_disk_size], 707-718 and 978-989. *)
Definition entry_disk_size (e : entry) : res Z :=
  do url <- encode (e_url e) ;;
  do tsz <- match e_title e with
            | Some (c :: t) => do b <- encode (c :: t) ;; Ok (zlen b + 1)
            | _ => Ok 1
            end ;;
  Ok (2 + (match e_kind e with Content _ _ => 14 | Redirect _ => 10 end) + (zlen url + 1) + tsz).

(** [f.read(n)] followed by [struct.unpack] of a format of length [n]:
    struct.error if the file is too short. *)
Definition read_exact (n : Z) (f : bytes) : res (bytes * bytes) :=
  if zlen f <? n then Err StructError else Ok (ztake n f, zskip n f).

(** [read_until_zero(f).decode(ENCODING)] *)
Definition read_string (f : bytes) : res (ustr * bytes) :=
  do sf <- read_until_zero f ;;
  let (s, f) := sf in
  do u <- decode s ;; Ok (u, f).

(** [[read_until_zero(f).decode(ENCODING) for i in range(n)]] (695, 968) *)
Fixpoint read_strings (n : nat) (f : bytes) : res (list ustr * bytes) :=
  match n with
  | O => Ok ([], f)
  | S n' =>
      do uf <- read_string f ;; let (u, f) := uf in
      do rf <- read_strings n' f ;; let (r, f) := rf in
      Ok (u :: r, f)
  end.

(** Constructor assertions 77 and 80: revision 0 and no parameters. *)
Definition construct (mt : Z) (ns : ustr) (revision : Z) (url ttl : ustr) (params : list ustr) (k : ekind) : res entry :=
  if negb (revision =? 0) then Err AssertionError
  else match params with
       | [] => Ok (mkEntry mt ns url (Some ttl) k)
       | _ => Err AssertionError
       end.

(** [ContentEntry.from_file] (669-705) after the mimetype was read. *)
Definition content_from_file (mt : Z) (f : bytes) : res (entry * bytes) :=
  do df <- read_exact 14 f ;; let (d, f) := df in
  let n_parameters := le_val (zsub 0 1 d) in
  let nsb := zsub 1 1 d in
  let revision := le_val (zsub 2 4 d) in
  let cluster := le_val (zsub 6 4 d) in
  let blob := le_val (zsub 10 4 d) in
  do ns <- decode nsb ;;
  do uf <- read_string f ;; let (url, f) := uf in
  do tf <- read_string f ;; let (ttl, f) := tf in
  do pf <- read_strings (Z.to_nat n_parameters) f ;; let (ps, f) := pf in
  do e <- construct mt ns revision url ttl ps (Content cluster blob) ;;
  Ok (e, f).

(** [RedirectEntry.from_file] (939-976) after the mimetype was read. *)
Definition redirect_from_file (mt : Z) (f : bytes) : res (entry * bytes) :=
  do df <- read_exact 10 f ;; let (d, f) := df in
  let n_parameters := le_val (zsub 0 1 d) in
  let nsb := zsub 1 1 d in
  let revision := le_val (zsub 2 4 d) in
  let index := le_val (zsub 6 4 d) in
  do ns <- decode nsb ;;
  do uf <- read_string f ;; let (url, f) := uf in
  do tf <- read_string f ;; let (ttl, f) := tf in
  do pf <- read_strings (Z.to_nat n_parameters) f ;; let (ps, f) := pf in
  do e <- construct MIMETYPE_ID_REDIRECT ns revision url ttl ps (Redirect index) ;;
  Ok (e, f).

(** [BaseEntry.from_file], 439-459, on the file contents from the seek
    position on; also returns the rest of the file. *)
Definition entry_from_file (f : bytes) : res (entry * bytes) :=
  do mf <- read_exact 2 f ;; let (m, f) := mf in
  let mimetype := le_val m in
  if mimetype =? MIMETYPE_ID_REDIRECT then redirect_from_file mimetype f
  else content_from_file mimetype f.

(** Reading at an offset of a whole file. *)
Definition entry_at (file : bytes) (offset : Z) : res entry :=
  do ef <- entry_from_file (zskip offset file) ;; Ok (fst ef).
