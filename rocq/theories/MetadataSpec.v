(** What C71 says: metadata is read back as it was set. *)
From Coq Require Import List ZArith Bool Strings.Byte.
From Verif Require Import Base Utf8 Entry Archive ClusterWrapper CompressionStrategy ViewSpec Metadata.
Import ListNotations.
Open Scope Z_scope.

(** The url of a key: it is in namespace M. *)
Definition key_url (key : ustr) : ustr := NS_M ++ key.
(** The item that [set_metadata(key, value, mimetype)] adds: no title, not an article. *)
Definition metadata_item (key mimetype : ustr) (d : bytes) : item := mkItem NS_M key mimetype (mem_source d) None false.

(** In a table of pages, less than [n] links lead from [u] to content with data
    [d]; none of these pages is in namespace X (where the archive keeps its
    title lists). *)
Definition outside_X (u : ustr) : Prop := hd 0 u <> 88.
Inductive leads (V : view) : nat -> ustr -> bytes -> Prop :=
| leads_data n u p m d : V u = Some p -> outside_X u -> pg_body p = Data m d -> leads V (S n) u d
| leads_link n u p v d : V u = Some p -> outside_X u -> pg_body p = Link v -> leads V n v d -> leads V (S n) u d.

(** How data is returned: as it is, or decoded. *)
Definition returned (as_unicode : bool) (d : bytes) (v : mvalue) : Prop :=
  if as_unicode then exists s, utf8_decode d = Some s /\ v = MText s else v = MBytes d.
(** The data of a value that is set. *)
Definition data_of (v : mvalue) (d : bytes) : Prop := match v with MText s => utf8_encode s = Some d | MBytes b => b = d end.

(** What a user does: set metadata, or flush the archive. *)
Inductive kop := KSet (key : ustr) (value : mvalue) (mimetype : ustr) | KFlush.
(** The value that was set last for [key]. *)
Definition last_set (key : ustr) (ops : list kop) : option mvalue :=
  fold_left (fun v o => match o with KSet k w _ => if ueqb k key then Some w else v | KFlush => v end) ops None.
