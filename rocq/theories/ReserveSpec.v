(** What C81 says: an archive is opened for writing again and again, each time
    with another value of the policy's [reserve_mimetype_space]. *)
From Coq Require Import List ZArith Bool.
From Verif Require Import Base Utf8 Infobyte Header MimeTypeList Entry Reader Cluster ClusterWrapper Archive ArchiveSpec ArchiveCluster ArchiveClusterSpec
  CompressionStrategy CompressionStrategySpec Flush FlushSpec FlushHistorySpec.
Import ListNotations.
Open Scope Z_scope.

(** A session: what is done with the archive under a policy that reserves
    [ss_reserve] bytes for the mimetype list ([None]: the list is put wherever
    there is space); then the archive is closed, and opened again with the
    strategies [ss_comp] and [ss_plain] of the next session. *)
Record session := mkSession { ss_reserve : option Z; ss_ops : list zop; ss_comp : anystrat; ss_plain : anystrat }.
Definition ss_all (s : session) : list zop := ss_ops s ++ [ZReopen (ss_comp s) (ss_plain s)].
Definition sadded (l : list session) : list (item * bytes) := concat (map (fun s => zadded (ss_ops s)) l).

(** An archive that was last written under [r] is now written under [r']: the
    space is the same, or no space is reserved any longer, or less space is
    reserved than before, but not less than the list has already. *)
Definition may_follow (r : option Z) (A : farchive) (r' : option Z) : Prop :=
  r' = r \/
  match r, r' with
  | Some _, None => True
  | Some a, Some b => mt_disk_size (ml_types (fa_mimes A)) <= b <= a
  | None, _ => False
  end.

Section Spec.
Variable fuel : nat.
Context {D : Type}.
Variable dc : decomp D.
Variable new_decomp : ctype -> res D.
Context {K : Type}.
Variable new_comp : ctype -> res K.
Variable comp : K -> bytes -> res (bytes * K).
Variable flush : K -> res bytes.
Variable depth : nat.
Variable kd : ckind.
Variable Stream : ctype -> bytes -> bytes -> Prop.
Context {H : Type}.
Variable md5 : H.
Variable feed : H -> bytes -> H.
Variable digest : H -> bytes.
Variable truncate : bool.
Variable process_blob : entry -> M zim unit.
Variable rounds : nat.
Definition in_session (r : option Z) : farchive -> list zop -> farchive -> Prop :=
  zruns fuel dc new_decomp new_comp comp flush depth kd Stream md5 feed digest r truncate process_blob rounds.
(** The sessions [l], after one under [r], lead from [A] to [A']. *)
Inductive lives : option Z -> farchive -> list session -> farchive -> Prop :=
| lives_nil r A : lives r A [] A
| lives_cons r A s A1 l A' : may_follow r A (ss_reserve s) -> in_session (ss_reserve s) A (ss_all s) A1 -> lives (ss_reserve s) A1 l A' -> lives r A (s :: l) A'.
End Spec.
