(** Opening an archive for reading, and what may be done with an archive that
    was opened for reading or is closed: pyzim/archive.py [__init__] 91-182,
    [open] 184-225, [_check_closed] 481-488, [close] 490-506, [__exit__] 695-705,
    [update_checksum] 2017-2030, the first lines of the methods that change an
    archive; pyzim/counter.py [load_from_archive] 67-124, [on_install] 200-211.

    Simplifications, besides those of Flush.v and CountedArchive.v: the
    arguments of the methods are of the expected types (these are looked at
    first, and lead to a TypeError or ValueError); the only processor is the
    counter, whose [before_close] and [after_close] do nothing (processor.py). *)
From Coq Require Import List ZArith Bool.
From Verif Require Import Base Utf8 Dict Infobyte Header MimeTypeList PointerList SpaceAllocator Entry Reader Cluster ClusterWrapper Counter
  Archive ArchiveCluster ArchiveClusterSpec CompressionStrategy OperationBuffer Flush CountedArchive.
Import ListNotations.
Open Scope Z_scope.

(** [Zim]: the archive, [mutable] (130: the mode is not "r"), [_closed], and
    [_counter]; [se_file_writable]: the file object can be written to. *)
Record session := mkSession {
  se_arch : farchive; se_mutable : bool; se_closed : bool; se_counter : option counter; se_file_writable : bool }.
Definition se_set_arch (A : farchive) (s : session) : session := mkSession A (se_mutable s) (se_closed s) (se_counter s) (se_file_writable s).

(** ** The checks *)

(** [self._check_closed()] (481-488), [self.ensure_mutable()] (modifiable.py 170-177). *)
Inductive check := CheckClosed | EnsureMutable.
Definition passes (s : session) (c : check) : res unit :=
  match c with
  | CheckClosed => if se_closed s then Err ZimFileClosed else Ok tt
  | EnsureMutable => if se_mutable s then Ok tt else Err NonMutable
  end.
Fixpoint pass_all (s : session) (l : list check) : res unit :=
  match l with
  | [] => Ok tt
  | c :: r => do _ <- passes s c ;; pass_all s r
  end.

(** The methods that change an archive.  [Entry.flush] (entry.py 485-496), [Entry.remove],
    [Cluster.flush] and [ContentEntry.set_content] end in these. *)
Inductive method :=
| MFlush               (* 517-689 *)
| MSetMainpage         (* set_mainpage_url, 988-1033 *)
| MRemove              (* remove_entry_by_full_url, 1035-1154 *)
| MWriteEntry          (* 1256-1448 *)
| MAddRedirect         (* 1450-1482 *)
| MAddFullUrlRedirect  (* 1484-1544 *)
| MSetMetadata         (* 1912-1946 *)
| MAddItem             (* 1950-1973 *)
| MWriteCluster        (* 1717-1802 *)
| MNewCluster.         (* 1804-1823 *)
(** Lines 524-525, 1002-1003, 1068-1069, 1276-1277, 1477-1478, 1517-1518,
    1935-1936, 1966-1967; 1741-1742, 1817-1818. *)
Definition checks (m : method) : list check :=
  match m with
  | MFlush | MSetMainpage | MRemove | MWriteEntry | MAddRedirect | MAddFullUrlRedirect | MSetMetadata | MAddItem => [CheckClosed; EnsureMutable]
  | MWriteCluster | MNewCluster => [EnsureMutable; CheckClosed]
  end.

(** The checks, then the body of the method.  The body is any computation. *)
Definition perform (m : method) (body : M farchive unit) : M session unit := fun s =>
  match pass_all s (checks m) with
  | Err e => (Err e, s)
  | Ok _ => let (r, A) := body (se_arch s) in (r, se_set_arch A s)
  end.

(** ** The methods without these checks *)

(** [close], 490-506; [flushing] is the body of [flush].  Closing a file that is closed does nothing. *)
Definition close (flushing : M farchive unit) : M session unit :=
  let* _ := (fun s => if is_dirty (se_arch s) then perform MFlush flushing s else (Ok tt, s)) in
  fun s => (Ok tt, mkSession (se_arch s) (se_mutable s) true (se_counter s) (se_file_writable s)).
(** [__exit__], 697-705. *)
Definition exit (flushing : M farchive unit) : M session unit := fun s =>
  if negb (se_closed s) then close flushing s else (Ok tt, s).

(** [zim.header.x = v]; [zim.mimetypelist.register(m)]. *)
Definition assign_header (f : hfield) (v : pyval) : M session unit := fun s =>
  let (r, A) := fa_assign f v (se_arch s) in (r, se_set_arch A s).
Definition register_mimetype (m : pystr) : M session unit := fun s =>
  match mt_register m (fa_mimes (se_arch s)) with
  | Ok l => (Ok tt, se_set_arch (fa_set_mimes l (se_arch s)) s)
  | Err e => (Err e, s)
  end.

Section ReadOnly.
Variable fuel : nat.
Context {D : Type}.
Variable dc : decomp D.
Variable new_decomp : ctype -> res D.
Context {K : Type}.
Variable new_comp : ctype -> res K.
Variable comp : K -> bytes -> res (bytes * K).
Variable flush : K -> res bytes.
Variable depth : nat.
Variable kd : ckind.
Context {H : Type}.
Variable md5 : H.
Variable feed : H -> bytes -> H.
Variable digest : H -> bytes.

(** [update_checksum], 2017-2030.  [acquire_file] (707-716), used by
    [calculate_checksum] as well, checks that the archive is open; writing to a
    file object that was opened for reading raises [io.UnsupportedOperation]. *)
Definition session_checksum : M session unit := fun s =>
  match passes s CheckClosed with
  | Err e => (Err e, s)
  | Ok _ =>
      match update_checksum md5 feed digest (se_arch s) with
      | (Err e, A) => (Err e, se_set_arch A s)
      | (Ok _, A) => if se_file_writable s then (Ok tt, se_set_arch A s) else (Err IOErr, s)
      end
  end.

(** ** Opening *)

(** [policy.counter], policy.py 89. *)
Inductive counting := Load | Ignore | Reinit | LoadOrReinit.
(** [Counter.load_from_archive], counter.py 67-124, for a file that exists. *)
Definition recount (A : farchive) : res (option counter) :=
  do l <- iter_entries (fa_zim A) None None ;;
  do n <- count_all (fa_mimes A) l [] ;;
  Ok (Some (mkCounter n true)).
Definition load_from_archive (how : counting) (A : farchive) : res (option counter) :=
  match how with
  | Ignore => Ok None
  | Reinit => recount A
  | Load | LoadOrReinit =>
      match load_counts fuel dc new_decomp kd A with
      | Ok n => Ok (Some (mkCounter n false))
      | Err EntryNotFound | Err BlobNotFound | Err ValueError | Err UnicodeErr =>
          match how with Load => Err NoCounter | _ => recount A end
      | Err x => Err x
      end
  end.
(** [install_processor] (archive.py 2068-2081), [on_install] (counter.py 200-211). *)
Definition install_counter : M session unit := fun s =>
  match has_entry_for_full_url (fa_zim (se_arch s)) URL_COUNTER with
  | Err e => (Err e, s)
  | Ok true => (Ok tt, s)
  | Ok false => perform MAddItem (fa_add_item fuel new_comp comp flush depth counter_item false) s
  end.
(** [Zim.__init__] for a file that exists, 149-182; [w]: the mode is "u" or "a", not "r". *)
Definition open_session (how : counting) (f : bytes) (w fw : bool) (sc sp : anystrat) : res session :=
  do A <- open_zim fuel dc new_decomp new_comp comp flush depth kd f w sc sp ;;
  do c <- load_from_archive how A ;;
  let s := mkSession A w false c fw in
  let '(r, s) := match c with Some _ => install_counter s | None => (Ok tt, s) end in
  do _ <- r ;; Ok (se_set_arch (fa_set_dirty false (se_arch s)) s).
(** [Zim.open], 184-225: the file is opened with mode "rb" or "r+b". *)
Definition open_path (how : counting) (f : bytes) (w : bool) (sc sp : anystrat) : res session := open_session how f w w sc sp.

(** ** What is done with a session *)
Inductive scall :=
| SMethod (m : method) (body : M farchive unit)
| SChecksum
| SAssign (f : hfield) (v : pyval)
| SRegister (m : pystr)
| SClose (flushing : M farchive unit)
| SExit (flushing : M farchive unit).
Definition scall_run (c : scall) : M session unit :=
  match c with
  | SMethod m body => perform m body
  | SChecksum => session_checksum
  | SAssign f v => assign_header f v
  | SRegister m => register_mimetype m
  | SClose fl => close fl
  | SExit fl => exit fl
  end.
(** A program that catches what is raised and goes on. *)
Fixpoint scalls (l : list scall) (s : session) : list (res unit) * session :=
  match l with
  | [] => ([], s)
  | c :: r => let (x, s) := scall_run c s in let (xs, s) := scalls r s in (x :: xs, s)
  end.
End ReadOnly.
