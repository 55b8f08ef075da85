(** Model of the window block coding in time_window.go. *)
From Verif Require Import M_Bytes.
Open Scope N_scope.

(** db_internal.go:37 *)
Definition entriesPerWindowBlock : nat := 335.

(** time_window.go:29-32 [_WinEntry] *)
Record wentry := mkWE { w_seq : N (* uint64 *); w_expiresAt : N (* uint32 *) }.
Definition we_zero : wentry := mkWE 0 0.

(** time_window.go:33-48 [_WinBlock]; the 335 element array as a list. *)
Record wblock := mkWB {
  wb_topicHash : N;          (* uint64 *)
  wb_entries : list wentry;
  wb_next : Z;               (* int64 *)
  wb_cutoffTime : Z;         (* int64 *)
  wb_entryIdx : N            (* uint16 *)
}.
Definition wb_zero : wblock := mkWB 0 (repeat we_zero entriesPerWindowBlock) 0 0 0.

Definition we_marshal (e : wentry) : bytes := le 8 (w_seq e) ++ le 4 (w_expiresAt e).

(** time_window.go:72-86 [marshalBinary]: 335*12 + 26 = 4046 bytes, padded. *)
Definition wblock_marshal (b : wblock) : bytes :=
  concat (map we_marshal (wb_entries b))
  ++ le 8 (to_unsigned 64 (wb_cutoffTime b)) ++ le 8 (wb_topicHash b)
  ++ le 8 (to_unsigned 64 (wb_next b)) ++ le 2 (wb_entryIdx b) ++ repeat 0 50.

Definition we_unmarshal (d : bytes) : wentry :=
  mkWE (unle (slice d 0 8)) (unle (slice d 8 4)).

Fixpoint we_unmarshal_n (n : nat) (d : bytes) : list wentry :=
  match n with
  | O => []
  | S n' => we_unmarshal d :: we_unmarshal_n n' (skipn 12 d)
  end.

(** time_window.go:89-101 [unmarshalBinary] *)
Definition wblock_unmarshal (data : bytes) : option wblock :=
  if Nat.ltb (length data) blockBytes then None
  else let d := skipn (12 * entriesPerWindowBlock) data in
       Some {| wb_topicHash := unle (slice d 8 8);
               wb_entries := we_unmarshal_n entriesPerWindowBlock data;
               wb_next := to_signed 64 (unle (slice d 16 8));
               wb_cutoffTime := to_signed 64 (unle (slice d 0 8));
               wb_entryIdx := unle (slice d 24 2) |}.

Definition wentry_ok (e : wentry) : Prop := w_seq e < 2 ^ 64 /\ w_expiresAt e < 2 ^ 32.
Definition wblock_ok (b : wblock) : Prop :=
  wb_topicHash b < 2 ^ 64 /\ Forall wentry_ok (wb_entries b) /\
  length (wb_entries b) = entriesPerWindowBlock /\
  (- 2 ^ 63 <= wb_next b < 2 ^ 63)%Z /\ (- 2 ^ 63 <= wb_cutoffTime b < 2 ^ 63)%Z /\
  wb_entryIdx b < 2 ^ 16.
