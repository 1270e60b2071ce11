(** The decompressors the registry hands out that are written in pyzim:
    [PassthroughDecompressor] (in Reader.v), [ZlibDecompressorWrapper]
    (compression.py 629-718) and [ZstandardDecompressorWrapper] (793-838).
    The wrapped library objects are parameters. *)
From Coq Require Import List ZArith Bool.
From Verif Require Import Base Reader.
Import ListNotations.
Open Scope Z_scope.

(** ** zlib *)
(** [zlib.decompressobj()]: [decompress(data, max_length)] (0: unlimited),
    [unconsumed_tail], [unused_data], [eof]. *)
Record zlibobj (St : Type) := mkZlib {
  zl_dec : St -> bytes -> Z -> res (bytes * St);
  zl_tail : St -> bytes;
  zl_unused : St -> bytes;
  zl_eof : St -> bool;
}.
Arguments mkZlib {St}. Arguments zl_dec {St}. Arguments zl_tail {St}. Arguments zl_unused {St}. Arguments zl_eof {St}.

Section Zlib.
Context {St : Type}.
Variable zo : zlibobj St.
(** State: the wrapped object and [_buffer]. *)
Definition zlib_state : Type := St * bytes.
(** [decompress], 653-678. *)
Definition zlib_dec (s : zlib_state) (data : bytes) (max_length : Z) : res (bytes * zlib_state) :=
  let '(d, buf) := s in
  let to_read := if max_length <? 0 then 0 else Z.max 0 (max_length - zlen buf) in
  do yd <- zl_dec zo d (zl_tail zo d ++ data) to_read ;;
  let '(y, d) := yd in
  let buf := buf ++ y in
  if max_length <? 0 then Ok (buf, (d, []))
  else
    let to_split := Z.min max_length (zlen buf) in
    Ok (ztake to_split buf, (d, zskip to_split buf)).
(** [needs_input], 680-694. *)
Definition zlib_needs (s : zlib_state) : bool :=
  let '(d, buf) := s in
  match buf with
  | _ :: _ => false
  | [] => if zl_eof zo d then false else match zl_tail zo d with _ :: _ => false | [] => true end
  end.
(** [unused_data], 696-708 (reading it also empties the buffer). *)
Definition zlib_unused (s : zlib_state) : bytes :=
  let '(d, buf) := s in match buf with _ :: _ => buf | [] => zl_unused zo d end.
(** [eof], 710-718. *)
Definition zlib_eof (s : zlib_state) : bool := zl_eof zo (fst s).
Definition zlib_decomp : decomp zlib_state := mkDecomp zlib_eof zlib_needs zlib_dec zlib_unused.
End Zlib.

(** ** zstandard *)
(** [ZstdDecompressor.decompressobj()]: [decompress(data)] without a limit,
    [eof], [unused_data]. *)
Record zstdobj (St : Type) := mkZstd {
  zs_dec : St -> bytes -> res (bytes * St);
  zs_unused : St -> bytes;
  zs_eof : St -> bool;
}.
Arguments mkZstd {St}. Arguments zs_dec {St}. Arguments zs_unused {St}. Arguments zs_eof {St}.

Section Zstd.
Context {St : Type}.
Variable zo : zstdobj St.
Definition zstd_state : Type := St * bytes.
(** [decompress], 808-821; the reader always passes a limit. *)
Definition zstd_dec (s : zstd_state) (data : bytes) (max_length : Z) : res (bytes * zstd_state) :=
  let '(d, buf) := s in
  match buf with
  | _ :: _ =>
      if zlen buf <? max_length then Ok (buf, (d, []))
      else Ok (ztake max_length buf, (d, zskip max_length buf))
  | [] =>
      do yd <- zs_dec zo d data ;;
      let '(y, d) := yd in
      if max_length <? zlen y then Ok (ztake max_length y, (d, zskip max_length y))
      else Ok (y, (d, []))
  end.
(** [eof], 827-829; [needs_input], 831-834; [unused_data], 836-838. *)
Definition zstd_eof (s : zstd_state) : bool := zs_eof zo (fst s) && (zlen (snd s) =? 0).
Definition zstd_needs (s : zstd_state) : bool := zlen (snd s) =? 0.
Definition zstd_unused (s : zstd_state) : bytes := zs_unused zo (fst s).
Definition zstd_decomp : decomp zstd_state := mkDecomp zstd_eof zstd_needs zstd_dec zstd_unused.
End Zstd.

(** ** A library object for examples: every byte b < 128 is output as it is,
    the byte 0xff ends the stream and produces nothing (like a checksum). *)
Fixpoint toy_decode (z : bytes) : bytes * option bytes :=
  match z with
  | [] => ([], None)
  | b :: r => if Zb b =? 255 then ([], Some r) else let '(y, e) := toy_decode r in (b :: y, e)
  end.
(** State: end seen, and what was fed after it. *)
Definition toy_zstd : zstdobj (bool * bytes) :=
  mkZstd (fun d z => let '(e, u) := d in
                     if e : bool then Err CompressionErr
                     else match toy_decode z with
                          | (y, None) => Ok (y, (false, []))
                          | (y, Some r) => Ok (y, (true, r))
                          end)
         snd fst.
(** The same with a limit.  State: end seen, tail, what was fed after the end. *)
Definition toy_zlib : zlibobj (bool * bytes * bytes) :=
  mkZlib (fun d z m =>
            let '(y, e) := toy_decode z in
            if (0 <? m) && (m <? zlen y) then Ok (ztake m y, (false, zskip m z, []))
            else match e with
                 | None => Ok (y, (false, [], []))
                 | Some r => Ok (y, (true, [], r))
                 end)
         (fun d => snd (fst d)) snd (fun d => fst (fst d)).
