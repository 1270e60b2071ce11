(** Model of [DecompressingReader], compression.py 234-431, and of the
    passthrough (de)compressor, 437-544. *)
From Coq Require Import List ZArith Bool.
From Verif Require Import Base.
Import ListNotations.
Open Scope Z_scope.

(** What the reader uses of a decompressor: [eof], [needs_input],
    [decompress(data, max_length)] and [unused_data]. *)
Record decomp (D : Type) := mkDecomp {
  d_eof : D -> bool;
  d_needs : D -> bool;
  d_dec : D -> bytes -> Z -> res (bytes * D);
  d_unused : D -> bytes;
}.
Arguments mkDecomp {D}. Arguments d_eof {D}. Arguments d_needs {D}. Arguments d_dec {D}. Arguments d_unused {D}.

(** [__init__], 244-257, plus the position of the shared file [_f]. *)
Record reader (D : Type) := mkReader {
  r_dec : D;
  r_buf : bytes;
  r_out : Z;     (* read_decompressed *)
  r_in : Z;      (* read_compressed *)
  r_pos : Z;     (* self._f.tell() *)
}.
Arguments mkReader {D}. Arguments r_dec {D}. Arguments r_buf {D}. Arguments r_out {D}. Arguments r_in {D}. Arguments r_pos {D}.

Section Reader.
Context {D : Type}.
Variable dc : decomp D.
Variable f : bytes.   (* contents of the file *)

Definition reader_new (d : D) (pos : Z) : reader D := mkReader d [] 0 0 pos.

(** [total_compressed_size], 259-271. *)
Definition total_compressed_size (r : reader D) : res Z :=
  if d_eof dc (r_dec r) then Ok (r_in r - zlen (d_unused dc (r_dec r))) else Err RuntimeErr.

(** The [while True] loop of [read], 310-328: the chunk that is finally
    decompressed. *)
Fixpoint read_loop (fuel : nat) (n extra : Z) (r : reader D) : res bytes * reader D :=
  match fuel with
  | O => (Err Diverge, r)
  | S fuel =>
      let needs := d_needs dc (r_dec r) in
      let further := if needs then zsub (r_pos r) n f else [] in
      if needs && (zlen further =? 0) then (Err IOErr, r)
      else
        let r := mkReader (r_dec r) (r_buf r) (r_out r) (r_in r + zlen further) (r_pos r + zlen further) in
        match d_dec dc (r_dec r) further (n + extra) with
        | Err e => (Err e, r)
        | Ok (y, d) =>
            let r := mkReader d (r_buf r) (r_out r) (r_in r) (r_pos r) in
            if (zlen y =? 0) && d_needs dc d then read_loop fuel n extra r else (Ok y, r)
        end
  end.

(** Enough iterations for any decompressor that makes progress. *)
Definition loop_fuel : nat := 2 * length f + 3.

(** [read], 273-335. *)
Definition read (n extra : Z) (r : reader D) : res bytes * reader D :=
  if n <? 0 then (Err AssertionError, r)
  else
    match r_buf r with
    | _ :: _ =>
        let to_read := Z.min n (zlen (r_buf r)) in
        (Ok (ztake to_read (r_buf r)),
         mkReader (r_dec r) (zskip to_read (r_buf r)) (r_out r + to_read) (r_in r) (r_pos r))
    | [] =>
        if d_eof dc (r_dec r) then (Ok [], r)
        else
          match read_loop loop_fuel n extra r with
          | (Err e, r) => (Err e, r)
          | (Ok y, r) =>
              if n <? zlen y then
                let ret := ztake n y in
                (Ok ret, mkReader (r_dec r) (r_buf r ++ zskip n y) (r_out r + zlen ret) (r_in r) (r_pos r))
              else (Ok y, mkReader (r_dec r) (r_buf r) (r_out r + zlen y) (r_in r) (r_pos r))
          end
    end.

(** [read_n], 337-355.  [data] is what was read so far; every round but the
    last reads at least one byte. *)
Fixpoint read_n_loop (fuel : nat) (n : Z) (data : bytes) (r : reader D) : res bytes * reader D :=
  match fuel with
  | O => (Err Diverge, r)
  | S fuel =>
      if zlen data <? n then
        match read (n - zlen data) 0 r with
        | (Err e, r) => (Err e, r)
        | (Ok [], r) => (Ok data, r)
        | (Ok x, r) => read_n_loop fuel n (data ++ x) r
        end
      else (Ok data, r)
  end.
Definition read_n (n : Z) (r : reader D) : res bytes * reader D := read_n_loop (Z.to_nat n + 2) n [] r.

(** [iter_read], 357-384, run to its end: the chunks it yields. *)
Fixpoint iter_read_loop (fuel : nat) (n buffersize n_read : Z) (r : reader D) : res (list bytes) * reader D :=
  match fuel with
  | O => (Err Diverge, r)
  | S fuel =>
      if (0 <=? n) && (n <=? n_read) then (Ok [], r)
      else
        let to_read := if 0 <=? n then Z.min buffersize (n - n_read) else buffersize in
        match read to_read 0 r with
        | (Err e, r) => (Err e, r)
        | (Ok [], r) => (Ok [], r)
        | (Ok x, r) =>
            match iter_read_loop fuel n buffersize (n_read + zlen x) r with
            | (Ok xs, r) => (Ok (x :: xs), r)
            | (Err e, r) => (Err e, r)
            end
        end
  end.
Definition iter_read (fuel : nat) (n buffersize : Z) (r : reader D) : res (list bytes) * reader D :=
  if 0 <? buffersize then iter_read_loop fuel n buffersize 0 r else (Err AssertionError, r).

(** [skip], 386-403. *)
Fixpoint skip_loop (fuel : nat) (n skipped : Z) (r : reader D) : res unit * reader D :=
  match fuel with
  | O => (Err Diverge, r)
  | S fuel =>
      if skipped <? n then
        match read (n - skipped) 0 r with
        | (Err e, r) => (Err e, r)
        | (Ok [], r) => (Ok tt, r)
        | (Ok x, r) => skip_loop fuel n (skipped + zlen x) r
        end
      else (Ok tt, r)
  end.
Definition skip (n : Z) (r : reader D) : res unit * reader D :=
  if n <? 0 then (Err AssertionError, r) else skip_loop (Z.to_nat n + 2) n 0 r.

(** [skip_to], 405-418. *)
Definition skip_to (offset : Z) (r : reader D) : res unit * reader D :=
  if offset <? 0 then (Err AssertionError, r)
  else if offset <? r_out r then (Err IOErr, r)
  else skip (offset - r_out r) r.

(** [reseek], 420-431; the file may have been moved to [pos] by someone else
    in the meantime. *)
Definition reseek (base_offset : Z) (r : reader D) : reader D :=
  mkReader (r_dec r) (r_buf r) (r_out r) (r_in r) (base_offset + r_in r).
Definition moved_to (pos : Z) (r : reader D) : reader D :=
  mkReader (r_dec r) (r_buf r) (r_out r) (r_in r) pos.
End Reader.

(** [PassthroughDecompressor], 473-528; the state is [_buffer]. *)
Definition pt_dec (buf data : bytes) (max_length : Z) : res (bytes * bytes) :=
  let full_data := buf ++ data in
  if max_length <? 0 then Ok (full_data, [])
  else
    let to_read := Z.min max_length (zlen full_data) in
    Ok (ztake to_read full_data, zskip to_read full_data).
Definition passthrough : decomp bytes :=
  mkDecomp (fun _ => false) (fun b => zlen b =? 0) pt_dec (fun _ => []).
(** [PassthroughCompressor], 437-470: compress returns its argument, flush nothing. *)
Definition pt_compress (chunks : list bytes) : bytes := concat chunks.
