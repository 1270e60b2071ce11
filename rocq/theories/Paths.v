(** Archives and translators that are given as paths (C100): [Zim.open] (archive.py
    184-225) with its modes, the parts of [Zim.__init__] that depend on the mode
    (149-182), and [PathReaderMixIn] with [ZimTranslator.__init__]
    (util/translator.py 227-325 and 34-41).

    Simplifications: those of Flush.v and Translator.v; the counter is off.  Two
    different paths lead to different files (no links), every file can be read and
    written, and nobody else uses the files.  What has been written to a file object
    is in the file; the caches of the policies (262-299) are not represented. *)
From Coq Require Import List ZArith Bool.
From Verif Require Import Base Utf8 Infobyte Entry Reader Cluster PointerList Archive ArchiveCluster CompressionStrategy OperationBuffer Flush Translator.
Import ListNotations.
Open Scope Z_scope.

(** The files: the content of the one at a path, if there is one. *)
Definition disk := ustr -> option bytes.
Definition store (d : disk) (path : ustr) (f : bytes) : disk := fun p => if ueqb p path then Some f else d p.

(** What is raised: by [Zim.open] (215-216), by [open()] (223), or by the archive. *)
Inductive perr := FileExistsError | FileNotFoundError | Raised (x : exn).
Definition pres (A : Type) := (A + perr)%type.
Definition from_res {A} (r : res A) : pres A := match r with Ok a => inl a | Err x => inr (Raised x) end.

(** The modes, 210-222: "r", "w", "x", "u" or "a", and any other string. *)
Inductive zmode := ModeR | ModeW | ModeX | ModeU | ModeOther.

Section Paths.
Variable fuel : nat.
Context {D : Type}.
Variable dc : decomp D.
Variable new_decomp : ctype -> res D.
Context {K : Type}.
Variable new_comp : ctype -> res K.
Variable comp : K -> bytes -> res (bytes * K).
Variable flush : K -> res bytes.
Variable depth : nat.
Variable kd : ckind.
Variable reserve : option Z.
(** What is in a file after [Zim.__init__] has failed for it, in a mode that writes. *)
Variable remains : bytes -> bytes.

(** [open(path, "w+b")], 223, which empties the file, then [Zim.__init__] with mode
    "w", 165-178.  [u]: the random uuid of the new archive. *)
Definition open_new (d : disk) (path : ustr) (u : bytes) (sc sp : anystrat) : pres farchive * disk :=
  match init_new fuel new_comp comp flush depth reserve u sc sp with
  | Ok A => (inl A, store d path (fa_file A))
  | Err x => (inr (Raised x), store d path (remains []))
  end.
(** [Zim.open], 184-225.  Its argument [offset] is not used (see C90). *)
Definition zim_open (d : disk) (path : ustr) (mode : zmode) (u : bytes) (sc sp : anystrat) : pres farchive * disk :=
  match mode with
  | ModeR =>
      match d path with
      | None => (inr FileNotFoundError, d)
      | Some f => (from_res (open_zim fuel dc new_decomp new_comp comp flush depth kd f false sc sp), d)
      end
  | ModeW => open_new d path u sc sp
  | ModeX => match d path with Some _ => (inr FileExistsError, d) | None => open_new d path u sc sp end
  | ModeU =>
      match d path with
      | None => (inr FileNotFoundError, d)
      | Some f =>
          match open_zim fuel dc new_decomp new_comp comp flush depth kd f true sc sp with
          | Ok A => (inl A, store d path (fa_file A))
          | Err x => (inr (Raised x), store d path (remains f))
          end
      end
  | ModeOther => (inr (Raised ValueError), d)
  end.

(** [PathReaderMixIn.open_in], 301-312; [open_out], 314-325, where [replace] is
    [allow_replacement]; [ZimTranslator.__init__], 34-41.  [isc] and [isp]: the
    compression strategies of [get_in_policy]; [sc] and [sp]: of [get_out_policy]. *)
Definition translator_new (d : disk) (inpath outpath : ustr) (replace : bool) (isc isp : anystrat) (u : bytes) (sc sp : anystrat) : pres (farchive * farchive) * disk :=
  match zim_open d inpath ModeR u isc isp with
  | (inr e, d) => (inr e, d)
  | (inl Ain, d) =>
      match zim_open d outpath (if replace then ModeW else ModeX) u sc sp with
      | (inr e, d) => (inr e, d)
      | (inl A, d) => (inl (Ain, A), d)
      end
  end.

Context {H : Type}.
Variable md5 : H.
Variable feed : H -> bytes -> H.
Variable digest : H -> bytes.
Variable truncate : bool.
Variable process_blob : entry -> M zim unit.
Variable rounds : nat.

(** A translator that is made and used, for two different paths: what the output
    archive writes gets into its file. *)
Definition translate_paths (d : disk) (inpath outpath : ustr) (replace : bool) (isc isp : anystrat) (u : bytes) (sc sp : anystrat) : pres farchive * disk :=
  match translator_new d inpath outpath replace isc isp u sc sp with
  | (inr e, d) => (inr e, d)
  | (inl (Ain, A), d) =>
      match translate fuel dc new_decomp new_comp comp flush depth kd md5 feed digest reserve truncate process_blob rounds Ain (ret tt) A with
      | (Ok _, A) => (inl A, store d outpath (fa_file A))
      | (Err x, A) => (inr (Raised x), store d outpath (fa_file A))
      end
  end.
End Paths.
