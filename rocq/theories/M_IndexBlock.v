(** Model of block.go (index blocks) and the block scan of block_reader.go. *)
From Verif Require Import M_Bytes.
Open Scope N_scope.

(** block.go:25, db_internal.go:36 *)
Definition blockSize : N := 4096.
Definition entriesPerIndexBlock : nat := 255.

(** block.go:29-36 [_IndexEntry]; [cache] is transient. *)
Record ientry := mkIE {
  x_seq : N;         (* uint64 *)
  x_topicSize : N;   (* uint16 *)
  x_valueSize : N;   (* uint32 *)
  x_msgOffset : Z    (* int64 *)
}.
Definition ie_zero : ientry := mkIE 0 0 0 0%Z.

(** block.go:37-44 [_IndexBlock]; the array has a fixed length of 255, kept as
    a list.  [baseSeq] is recomputed when marshalling; [dirty]/[leased] are not
    stored. *)
Record iblock := mkIB {
  b_entries : list ientry;
  b_entryIdx : N      (* uint16 *)
}.

(** block.go:47-49 [blockIndex]: [int32(float64(seq-1)/255)].  For
    1 <= seq <= 255*2^31 the float quotient truncates to the integer quotient;
    outside that range the Go result is unspecified, and the model keeps the
    mathematical quotient. *)
Definition blockIndex (seq : N) : Z := (Z.of_N (u64 (seq + 2 ^ 64 - 1)) / 255)%Z.

(** block.go:51-56 [blockOffset]: the product is computed in int32 and wraps. *)
Definition blockOffset (idx : Z) : Z :=
  if (idx =? -1)%Z then 0%Z
  else to_signed 32 (to_unsigned 32 (4096 * idx)).

(** block.go:76-90: one slot, key relative to the base. *)
Definition ie_marshal (base : N) (s : ientry) : bytes :=
  let rel := if x_seq s =? 0 then 0
             else u16 (x_seq s + 2 ^ 64 - base + 255) in
  le 2 rel ++ le 2 (x_topicSize s) ++ le 4 (x_valueSize s)
  ++ le 8 (to_unsigned 64 (x_msgOffset s)).

(** block.go:71-92 [marshalBinary]; base is the key of slot 0; 6 bytes of
    padding fill the 4096 byte block. *)
Definition iblock_marshal (b : iblock) : bytes :=
  let base := match b_entries b with e :: _ => x_seq e | [] => 0 end in
  le 8 base ++ concat (map (ie_marshal base) (b_entries b))
  ++ le 2 (b_entryIdx b) ++ repeat 0 6.

(** block.go:98-110: one slot; the relative key is an int16, sign extended by
    the conversion to uint64. *)
Definition ie_unmarshal (base : N) (d : bytes) : ientry :=
  let rel := unle (slice d 0 2) in
  {| x_seq := if rel =? 0 then 0
              else u64 (base + to_unsigned 64 (to_signed 16 rel) + 2 ^ 64 - 255);
     x_topicSize := unle (slice d 2 2);
     x_valueSize := unle (slice d 4 4);
     x_msgOffset := to_signed 64 (unle (slice d 8 8)) |}.

Fixpoint ie_unmarshal_n (n : nat) (base : N) (d : bytes) : list ientry :=
  match n with
  | O => []
  | S n' => ie_unmarshal base d :: ie_unmarshal_n n' base (skipn 16 d)
  end.

(** block.go:95-113 [unmarshalBinary]; panics on a short slice. *)
Definition iblock_unmarshal (data : bytes) : option iblock :=
  if Nat.ltb (length data) blockBytes then None
  else let base := unle (slice data 0 8) in
       let d := skipn 8 data in
       Some {| b_entries := ie_unmarshal_n entriesPerIndexBlock base d;
               b_entryIdx := unle (slice d (16 * entriesPerIndexBlock) 2) |}.

Inductive read_result :=
| RFound (e : ientry)
| RDeleted           (* errMsgIDDeleted *)
| RInvalid.          (* errEntryInvalid *)

(** block_reader.go:63-78: first slot with the key; offset -1 marks deletion. *)
Fixpoint scan_entries (l : list ientry) (seq : N) : read_result :=
  match l with
  | [] => RInvalid
  | e :: l' =>
      if x_seq e =? seq
      then if (x_msgOffset e =? -1)%Z then RDeleted else RFound e
      else scan_entries l' seq
  end.

(** block.go:58-60 [mSize]: uint32 arithmetic, idSize = 9 (db_internal.go:42). *)
Definition idSize : nat := 9.
Definition mSize (e : ientry) : N := u32 (N.of_nat idSize + x_topicSize e + x_valueSize e).

(** Go field types. *)
Definition ientry_ok (e : ientry) : Prop :=
  x_seq e < 2 ^ 64 /\ x_topicSize e < 2 ^ 16 /\ x_valueSize e < 2 ^ 32 /\
  (- 2 ^ 63 <= x_msgOffset e < 2 ^ 63)%Z.
