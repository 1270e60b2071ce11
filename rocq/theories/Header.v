(** Model of pyzim/header.py and of the dirty tracking it inherits from
    pyzim/modifiable.py. *)
From Coq Require Import List ZArith Bool.
From Verif Require Import Base.
Import ListNotations.
Open Scope Z_scope.

(** header.py 57-143: the attributes of a header.  [h_uuid] is the value of
    [uuid.bytes] (16 bytes, big endian); [h_main_page]/[h_layout_page] are the
    private attributes, with 0xffffffff for "none". *)
Record header := mkHeader {
  h_magic : Z; h_major : Z; h_minor : Z; h_uuid : bytes;
  h_entry_count : Z; h_cluster_count : Z;
  h_url_pos : Z; h_title_pos : Z; h_cluster_pos : Z; h_mime_pos : Z;
  h_main_page : Z; h_layout_page : Z; h_checksum_pos : Z }.

(** header.py 53 *)
Definition MAGIC_NUMBER : Z := 72173914.
(** header.py 54-55: struct format "<IHH16sIIQQQQIIQ", 80 bytes *)
Definition HEADER_LENGTH : Z := 80.
Definition NO_PAGE : Z := 4294967295.

(** uuid.UUID: [UUID(bytes_le=b).bytes] and [u.bytes_le] are the same
    permutation: reverse the fields of 4, 2 and 2 bytes. *)
Definition uuid_swap (b : bytes) : bytes :=
  rev (zsub 0 4 b) ++ rev (zsub 4 2 b) ++ rev (zsub 6 2 b) ++ zskip 8 b.

(** Sequential decoding of one little-endian field by [struct.unpack]. *)
Definition take_le (n : Z) (s : bytes) : Z * bytes := (le_val (ztake n s), zskip n s).

(** [Header.to_bytes], header.py 709-732. *)
Definition header_to_bytes (h : header) : res bytes :=
  do b1 <- pack_le 4 (h_magic h) ;;
  do b2 <- pack_le 2 (h_major h) ;;
  do b3 <- pack_le 2 (h_minor h) ;;
  do b5 <- pack_le 4 (h_entry_count h) ;;
  do b6 <- pack_le 4 (h_cluster_count h) ;;
  do b7 <- pack_le 8 (h_url_pos h) ;;
  do b8 <- pack_le 8 (h_title_pos h) ;;
  do b9 <- pack_le 8 (h_cluster_pos h) ;;
  do b10 <- pack_le 8 (h_mime_pos h) ;;
  do b11 <- pack_le 4 (h_main_page h) ;;
  do b12 <- pack_le 4 (h_layout_page h) ;;
  do b13 <- pack_le 8 (h_checksum_pos h) ;;
  Ok (b1 ++ b2 ++ b3 ++ uuid_swap (h_uuid h) ++ b5 ++ b6 ++ b7 ++ b8 ++ b9 ++ b10 ++ b11 ++ b12 ++ b13).

(** [Header.from_bytes], header.py 674-689 (the constructor's assertions hold
    for every unpacked value, so they are not repeated). *)
Definition header_from_bytes (s : bytes) : res header :=
  if negb (zlen s =? HEADER_LENGTH) then Err ValueError
  else
    let (magic, s) := take_le 4 s in
    let (major, s) := take_le 2 s in
    let (minor, s) := take_le 2 s in
    let uuid := uuid_swap (ztake 16 s) in
    let s := zskip 16 s in
    let (ec, s) := take_le 4 s in
    let (cc, s) := take_le 4 s in
    let (up, s) := take_le 8 s in
    let (tp, s) := take_le 8 s in
    let (cp, s) := take_le 8 s in
    let (mp, s) := take_le 8 s in
    let (mainp, s) := take_le 4 s in
    let (lay, s) := take_le 4 s in
    let (cs, s) := take_le 8 s in
    Ok (mkHeader magic major minor uuid ec cc up tp cp mp mainp lay cs).

(** [Header.from_file], header.py 692-707, at position [seek]. *)
Definition header_from_file (f : bytes) (seek : Z) : res header :=
  header_from_bytes (fread f seek HEADER_LENGTH).

(** [Header.check_compatible], header.py 218-234. *)
Definition check_compatible (h : header) : res unit :=
  if negb (h_magic h =? MAGIC_NUMBER) then Err NotAZim
  else if negb (h_major h =? 6) then Err IncompatibleZim
  else if (h_major h <? 6) || ((h_major h =? 6) && (h_minor h <? 1)) then Err IncompatibleZim
  else Ok tt.

(** [Header.main_page] / [layout_page] getters, header.py 554-563, 598-607. *)
Definition main_page (h : header) : option Z :=
  if h_main_page h =? NO_PAGE then None else Some (h_main_page h).
Definition layout_page (h : header) : option Z :=
  if h_layout_page h =? NO_PAGE then None else Some (h_layout_page h).

(** ** Mutable header objects *)

(** Python values handed to a setter. *)
Inductive pyval := PInt (z : Z) | PNone | PBytes (b : bytes) | PUuid (b : bytes) | POther.

(** Which attribute is assigned. *)
Inductive hfield :=
| FMagic | FMajor | FMinor | FUuid | FEntryCount | FClusterCount | FUrlPos
| FTitlePos | FClusterPos | FMimePos | FMainPage | FLayoutPage | FChecksumPos.

(** modifiable.py 33-42: the mixin's attributes, around the header fields.
    Headers have no submodifiables. *)
Record hobj := mkHobj { ho_hdr : header; ho_dirty : bool; ho_mutable : bool; ho_old_size : Z }.

(** Value checks and conversions done by the setters before
    [ensure_mutable()]: header.py 273-274, 301-304, 360-367, 394-397, ...,
    576-579, 620-623.  The result is the converted value ([inl] integer,
    [inr] uuid bytes). *)
Definition hconvert (f : hfield) (v : pyval) : res (Z + bytes) :=
  match f with
  | FMagic => match v with PInt z => Ok (inl z) | _ => Err TypeError end
  | FUuid =>
      match v with
      | PInt z => if (0 <=? z) && (z <? 256 ^ 16) then Ok (inr (rev (le_bytes 16 z))) else Err ValueError
      | PBytes b => if zlen b =? 16 then Ok (inr (uuid_swap b)) else Err ValueError
      | PUuid b => Ok (inr b)
      | _ => Err TypeError
      end
  | FMainPage | FLayoutPage =>
      match v with
      | PNone => Ok (inl NO_PAGE)
      | PInt z => if z <? 0 then Err ValueError else Ok (inl z)
      | _ => Err TypeError
      end
  | _ =>
      match v with
      | PInt z => if z <? 0 then Err ValueError else Ok (inl z)
      | _ => Err TypeError
      end
  end.

(** The attribute compared and stored by each setter. *)
Definition hget (f : hfield) (h : header) : Z + bytes :=
  match f with
  | FMagic => inl (h_magic h) | FMajor => inl (h_major h) | FMinor => inl (h_minor h)
  | FUuid => inr (h_uuid h)
  | FEntryCount => inl (h_entry_count h) | FClusterCount => inl (h_cluster_count h)
  | FUrlPos => inl (h_url_pos h) | FTitlePos => inl (h_title_pos h)
  | FClusterPos => inl (h_cluster_pos h) | FMimePos => inl (h_mime_pos h)
  | FMainPage => inl (h_main_page h) | FLayoutPage => inl (h_layout_page h)
  | FChecksumPos => inl (h_checksum_pos h)
  end.

Definition hset (f : hfield) (v : Z + bytes) (h : header) : header :=
  let '(mkHeader a b c u d e g i j k l m n) := h in
  match f, v with
  | FMagic, inl z => mkHeader z b c u d e g i j k l m n
  | FMajor, inl z => mkHeader a z c u d e g i j k l m n
  | FMinor, inl z => mkHeader a b z u d e g i j k l m n
  | FUuid, inr x => mkHeader a b c x d e g i j k l m n
  | FEntryCount, inl z => mkHeader a b c u z e g i j k l m n
  | FClusterCount, inl z => mkHeader a b c u d z g i j k l m n
  | FUrlPos, inl z => mkHeader a b c u d e z i j k l m n
  | FTitlePos, inl z => mkHeader a b c u d e g z j k l m n
  | FClusterPos, inl z => mkHeader a b c u d e g i z k l m n
  | FMimePos, inl z => mkHeader a b c u d e g i j z l m n
  | FMainPage, inl z => mkHeader a b c u d e g i j k z m n
  | FLayoutPage, inl z => mkHeader a b c u d e g i j k l z n
  | FChecksumPos, inl z => mkHeader a b c u d e g i j k l m z
  | _, _ => h
  end.

Definition hval_eqb (a b : Z + bytes) : bool :=
  match a, b with
  | inl x, inl y => x =? y
  | inr x, inr y => beqb x y
  | _, _ => false
  end.

(** A setter, header.py 264-669: validate and convert, [ensure_mutable]
    (modifiable.py 170-177), then change and [mark_dirty] only if different.
    (For main_page/layout_page the conversion of None happens after
    [ensure_mutable], which makes no difference since it cannot fail.) *)
Definition hassign (f : hfield) (v : pyval) (o : hobj) : res hobj :=
  do c <- hconvert f v ;;
  if negb (ho_mutable o) then Err NonMutable
  else if hval_eqb c (hget f (ho_hdr o)) then Ok o
  else Ok (mkHobj (hset f c (ho_hdr o)) true (ho_mutable o) (ho_old_size o)).

(** [after_flush_or_read] after writing [to_bytes()]: modifiable.py 100-118. *)
Definition hflush (o : hobj) : res (bytes * hobj) :=
  do b <- header_to_bytes (ho_hdr o) ;;
  Ok (b, mkHobj (ho_hdr o) false (ho_mutable o) HEADER_LENGTH).

(** A freshly constructed header object (57-146). *)
Definition hobj_new (h : header) : hobj := mkHobj h false true HEADER_LENGTH.

(** [Header.placeholder], 149-177, for the random uuid [u]. *)
Definition header_placeholder (u : bytes) : hobj :=
  mkHobj (mkHeader MAGIC_NUMBER 6 3 u 0 0 0 18446744073709551615 0 0 NO_PAGE NO_PAGE 0) true true HEADER_LENGTH.
