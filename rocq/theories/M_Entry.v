(** Model of entry.go: the 26 byte record stored in front of every message in
    the in-memory store and in the write-ahead log. *)
From Verif Require Import M_Bytes.
Open Scope N_scope.

(** entry.go:26-28  [entrySize = 26] *)
Definition entrySize : nat := 26.

(** entry.go:31-40 [_Entry].  The fields [parsed] and [cache] are transient and
    not part of the record; they are left out. *)
Record entry := mkEntry {
  e_seq : N;         (* uint64 *)
  e_topicSize : N;   (* uint16 *)
  e_valueSize : N;   (* uint32 *)
  e_expiresAt : N;   (* uint32 *)
  e_topicHash : N    (* uint64 *)
}.

(** entry.go:109-119 [_Entry.MarshalBinary]: consecutive little endian fields;
    the five Put calls cover the 26 byte buffer exactly. *)
Definition entry_marshal (e : entry) : bytes :=
  le 8 (e_seq e) ++ le 2 (e_topicSize e) ++ le 4 (e_valueSize e)
  ++ le 4 (e_expiresAt e) ++ le 8 (e_topicHash e).

(** entry.go:121-129 [_Entry.UnmarshalBinary].  The slice expressions panic if
    [data] has fewer than 26 bytes: [None]. *)
Definition entry_unmarshal (data : bytes) : option entry :=
  if Nat.ltb (length data) entrySize then None
  else Some {| e_seq := unle (slice data 0 8);
               e_topicSize := unle (slice data 8 2);
               e_valueSize := unle (slice data 10 4);
               e_expiresAt := unle (slice data 14 4);
               e_topicHash := unle (slice data 18 8) |}.

(** The Go field types. *)
Definition entry_ok (e : entry) : Prop :=
  e_seq e < 2 ^ 64 /\ e_topicSize e < 2 ^ 16 /\ e_valueSize e < 2 ^ 32 /\
  e_expiresAt e < 2 ^ 32 /\ e_topicHash e < 2 ^ 64.
