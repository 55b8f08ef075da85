(** Model of message/id.go and the time part of uid/uid.go. *)
From Verif Require Import M_Bytes.
Open Scope N_scope.

(** message/id.go:28 *)
Definition MasterContract : N := 3376684800.
(** uid/uid.go:29 *)
Definition Offset : Z := 1555770000.
Definition MaxUint32 : N := 2 ^ 32 - 1.

(** uid/uid.go:44-47 [NewApoch]: [uint32(time.Now().Unix() - Offset)], then the
    32 bit complement.  [now] is the wall clock in seconds. *)
Definition newApoch (now : Z) : N :=
  u32 (MaxUint32 + 2 ^ 32 - to_unsigned 32 (now - Offset)).

(** uid/uid.go:59-61 [Time]: [int64(MaxUint32 - le32(id)) + Offset]. *)
Definition uid_time (id : bytes) : Z :=
  (Z.of_N (u32 (MaxUint32 + 2 ^ 32 - unle (slice id 0 4))) + Offset)%Z.

(** message/id.go:45-52 [NewID] *)
Definition newID (now : Z) (seq : N) : bytes :=
  le 4 (newApoch now) ++ le 4 MasterContract ++ le 8 seq.

(** message/id.go:60-62 [Sequence] *)
Definition id_sequence (id : bytes) : N := unle (slice id 8 8).
(** message/id.go:65-70 [SetContract]: copies 16 bytes and overwrites 4..8. *)
Definition id_setContract (id : bytes) (contract : N) : bytes :=
  firstn 4 id ++ le 4 contract ++ slice id 8 8.
(** message/id.go:73-77 [Prefix] *)
Definition id_prefix (id : bytes) : bytes := firstn 8 id.
(** the contract field as read by [EvalPrefix], id.go:83 *)
Definition id_contract (id : bytes) : N := unle (slice id 4 4).

(** message/id.go:80-86 [EvalPrefix] *)
Definition evalPrefix (id : bytes) (contract : N) (cutoff : Z) : bool :=
  if (0 <? cutoff)%Z
  then ((cutoff <=? uid_time (slice id 0 4))%Z && (id_contract id =? contract))%bool
  else id_contract id =? contract.
