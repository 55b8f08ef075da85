(** Model of db_info.go: the 32 byte header kept in the info file. *)
From Verif Require Import M_Bytes.
Open Scope N_scope.

(** db_info.go:24  signature = "unitdb\x0e" *)
Definition signature : bytes := [117; 110; 105; 116; 100; 98; 14].
(** db_info.go:25  fixed = 32 *)
Definition info_fixed : nat := 32.
(** db_internal.go:43  version = 1 *)
Definition version : N := 1.

(** db_info.go:29-38 [_Header], [_DBInfo]; [encryption] is an int8, kept as
    its byte pattern (the code only ever compares it with 1). *)
Record dbinfo := mkInfo {
  i_signature : bytes;   (* [7]byte *)
  i_version : N;         (* uint32 *)
  i_encryption : N;      (* int8 as byte *)
  i_sequence : N;        (* uint64 *)
  i_count : N            (* uint64 *)
}.

(** A store of [d] at offset [off] of the buffer [buf] (Go [copy] / PutUintN
    into a sub slice); offsets in this file are always inside the buffer. *)
Definition put (buf : bytes) (off : nat) (d : bytes) : bytes :=
  firstn off buf ++ d ++ skipn (off + length d) buf.

(** db_info.go:41-51 [MarshalBinary]; the writes are in program order: the
    encryption byte goes to offset 12 and is then overwritten by the sequence. *)
Definition info_marshal (i : dbinfo) : bytes :=
  let buf := repeat 0 info_fixed in
  let buf := put buf 0 (i_signature i) in
  let buf := put buf 7 (le 4 (i_version i)) in
  let buf := put buf 12 [i_encryption i] in
  let buf := put buf 12 (le 8 (i_sequence i)) in
  put buf 20 (le 8 (i_count i)).

(** db_info.go:53-62 [UnmarshalBinary]; encryption is read from offset 7, the
    low byte of the version. *)
Definition info_unmarshal (data : bytes) : option dbinfo :=
  if Nat.ltb (length data) 28 then None
  else Some {| i_signature := slice data 0 7;
               i_version := unle (slice data 7 4);
               i_encryption := unle (slice data 7 1);
               i_sequence := unle (slice data 12 8);
               i_count := unle (slice data 20 8) |}.

Inductive open_info_result :=
| OpenIO                      (* short read or panic *)
| OpenCorrupted               (* errCorrupted *)
| OpenOk (i : dbinfo).

Definition bytes_eqb (a b : bytes) : bool :=
  if list_eq_dec N.eq_dec a b then true else false.

(** db.go:95-117 [Open]: a new (empty) info file is initialised with zero
    counters and then read back; an existing one is read, and the signature is
    compared. [None] stands for the empty file. *)
Definition open_info (file : option bytes) : open_info_result :=
  let content := match file with
                 | None => info_marshal (mkInfo signature version 0 0 0)
                 | Some b => b
                 end in
  if Nat.ltb (length content) info_fixed then OpenIO
  else match info_unmarshal (firstn info_fixed content) with
       | None => OpenIO
       | Some i => if bytes_eqb (i_signature i) signature then OpenOk i else OpenCorrupted
       end.

(** db.go:95-117 followed by db.go:164-167: the header held by an opened
    database, given the WithEncryption option. *)
Definition open_header (opt_encryption : bool) (file : option bytes) : open_info_result :=
  match open_info file with
  | OpenOk i => OpenOk (if opt_encryption
                        then mkInfo (i_signature i) (i_version i) 1 (i_sequence i) (i_count i)
                        else i)
  | r => r
  end.

(** db_internal.go:108-120 [writeInfo]: the header written at sync and close. *)
Definition write_info (encryption sequence count : N) : bytes :=
  info_marshal (mkInfo signature version encryption sequence count).

Definition info_ok (i : dbinfo) : Prop :=
  length (i_signature i) = 7%nat /\ bytes_ok (i_signature i) /\
  i_version i < 2 ^ 32 /\ i_encryption i < 256 /\
  i_sequence i < 2 ^ 64 /\ i_count i < 2 ^ 64.
