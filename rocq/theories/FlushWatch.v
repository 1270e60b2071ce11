(** The calls that [Zim.flush] and [Zim.close] make to the processors
    (processor.py 235-262, 40-58): [before_flush], [after_content_flush],
    [after_flush], [before_close] and [after_close].  [Zim._processors] holds one
    processor that writes down when it was told what, and looks at the archive at
    that moment; the other methods are those of [BaseProcessor], which do
    nothing. *)
From Coq Require Import List ZArith Bool.
From Verif Require Import Base Infobyte Reader Cluster Entry Archive ArchiveCluster CompressionStrategy Flush.
Import ListNotations.
Open Scope Z_scope.

Inductive moment := BeforeFlush | AfterContentFlush | AfterFlush | BeforeClose | AfterClose.

(** The archive, whether it is closed (archive.py 125, 502), and what the
    processor wrote down. *)
Record watch := mkWatch { wa_arch : farchive; wa_closed : bool; wa_told : list (moment * farchive) }.
Definition on_arch (m : M farchive unit) : M watch unit := fun w =>
  let '(r, A) := m (wa_arch w) in (r, mkWatch A (wa_closed w) (wa_told w)).
(** [for processor in self._processors: processor.before_...()] *)
Definition told (t : moment) : M watch unit := fun w => (Ok tt, mkWatch (wa_arch w) (wa_closed w) (wa_told w ++ [(t, wa_arch w)])).

Section Watch.
Variable fuel : nat.
Context {D : Type}.
Variable dc : decomp D.
Variable new_decomp : ctype -> res D.
Context {K : Type}.
Variable new_comp : ctype -> res K.
Variable comp : K -> bytes -> res (bytes * K).
Variable flush : K -> res bytes.
Variable depth : nat.
Variable kd : ckind.
Context {H : Type}.
Variable md5 : H.
Variable feed : H -> bytes -> H.
Variable digest : H -> bytes.
Variable reserve : option Z.
Variable truncate : bool.
Variable process_blob : entry -> M zim unit.
Variable rounds : nat.

(** [self.dirty]; [sync_main] is for the main page, which Flush.v keeps apart
    from the header. *)
Definition modified (A : farchive) : bool := is_dirty (snd (sync_main A)).

(** [flush], archive.py 517-689, of an archive that is not read-only:
    [_check_closed] (524), the processors (530-531), [zim_flush] of Flush.v in
    two parts with the processors in between (563-564) and behind it, when the
    archive has been marked as saved (685-688). *)
Definition watched_flush : M watch unit := fun w =>
  if wa_closed w then (Err ZimFileClosed, w)
  else
    (let* _ := told BeforeFlush in
     let* _ := on_arch sync_main in
     fun w =>
       if negb (is_dirty (wa_arch w)) then (Ok tt, w)
       else
         (let* _ := on_arch (flush_content fuel new_comp comp flush depth process_blob rounds) in
          let* _ := told AfterContentFlush in
          let* _ := on_arch (flush_tail fuel dc new_decomp new_comp comp flush depth kd md5 feed digest reserve truncate) in
          told AfterFlush) w) w.

(** [close], 490-506. *)
Definition watched_close : M watch unit :=
  let* _ := told BeforeClose in
  let* _ := (fun w => if modified (wa_arch w) then watched_flush w else (Ok tt, w)) in
  let* _ := (fun w => (Ok tt, mkWatch (wa_arch w) true (wa_told w))) in
  told AfterClose.
End Watch.
