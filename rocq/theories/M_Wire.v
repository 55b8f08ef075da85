(** Model of the framing of the server protocol: server/utp/message.go and
    server/internal/net/message.go. *)
From Verif Require Import M_Bytes.
Open Scope N_scope.

(** server/utp/message.go:108-122 [encodeLength]; every caller passes a slice
    length, so [length] is not negative.  The fuel is the number of rounds, at
    most 10 for a 63 bit length. *)
Fixpoint encodeLength_loop (fuel : nat) (len : N) : bytes :=
  match fuel with
  | O => []
  | S k =>
      let digit := len mod 128 in
      let len := len / 128 in
      let digit := if 0 <? len then N.lor digit 0x80 else digit in
      digit :: (if len =? 0 then [] else encodeLength_loop k len)
  end.
Definition encodeLength (len : N) : bytes := encodeLength_loop 10 len.

(** server/utp/message.go:124-142 [decodeLength]: reads one byte at a time
    while [multiplier < 27].  The result pairs the number with the unread rest
    of the stream; [None] is the error of [io.ReadFull].  [fuel] bounds the
    rounds; multiplier grows by 7. *)
Fixpoint decodeLength_loop (fuel : nat) (rLength multiplier : N) (r : bytes) : option (N * bytes) :=
  match fuel with
  | O => Some (rLength, r)
  | S k =>
      if multiplier <? 27 then
        match r with
        | [] => None
        | digit :: r =>
            let rLength := N.lor rLength (u32 (N.shiftl (N.land digit 127) multiplier)) in
            if N.land digit 128 =? 0 then Some (rLength, r)
            else decodeLength_loop k rLength (multiplier + 7) r
        end
      else Some (rLength, r)
  end.
Definition decodeLength (r : bytes) : option (N * bytes) := decodeLength_loop 5 0 0 r.

(** server/utp/message.go:52-57 [FixedHeader] *)
Record fheader := mkFH { fh_type : N; fh_flow : N; fh_len : N }.

(** The protobuf encoding of the header is outside the repository: an argument.
    [Unmarshal]'s error is dropped (message.go:96); a failed parse leaves what
    was read so far, so decoding is total. *)
Record hcodec := mkHC { hc_marshal : fheader -> bytes; hc_unmarshal : bytes -> fheader }.
Definition hcodec_ok (C : hcodec) : Prop :=
  forall h, fh_type h < 2 ^ 8 -> fh_flow h < 2 ^ 8 -> fh_len h < 2 ^ 31 ->
    hc_unmarshal C (hc_marshal C h) = h /\ N.of_nat (length (hc_marshal C h)) < 2 ^ 28.

(** server/utp/message.go:65-82 [pack]; the length is narrowed to int32. *)
Definition fh_pack (C : hcodec) (h : fheader) : bytes :=
  let m := hc_marshal C (mkFH (fh_type h) (fh_flow h) (u32 (fh_len h))) in
  encodeLength (N.of_nat (length m)) ++ m.

(** [io.ReadFull] of n bytes *)
Definition readFull (n : nat) (r : bytes) : option (bytes * bytes) :=
  if Nat.ltb (length r) n then None else Some (firstn n r, skipn n r).

(** server/utp/message.go:84-106 [FromBinary] *)
Definition fh_fromBinary (C : hcodec) (r : bytes) : option (fheader * bytes) :=
  match decodeLength r with
  | None => None
  | Some (n, r) => match readFull (N.to_nat n) r with
                   | None => None
                   | Some (h, r) => Some (hc_unmarshal C h, r)
                   end
  end.

(** server/utp/message.go:29-39 *)
Definition CONNECT := 1. Definition PUBLISH := 2. Definition RELAY := 3.
Definition SUBSCRIBE := 4. Definition UNSUBSCRIBE := 5. Definition PINGREQ := 6.
Definition DISCONNECT := 7.

(** server/utp/*.go [ToBinary]: header, then the protobuf encoding of the body. *)
Definition msg_encode (C : hcodec) (ty flow : N) (body : bytes) : bytes :=
  fh_pack C (mkFH ty flow (N.of_nat (length body))) ++ body.

(** server/internal/net/message.go:36-85 [Read], up to the decoding of the
    body.  A length with the sign bit set makes [make] panic. *)
Inductive rd := RdErr | RdPanic | RdMsg (ty flow : N) (body rest : bytes).
Definition msg_read (C : hcodec) (r : bytes) : rd :=
  match fh_fromBinary C r with
  | None => RdErr
  | Some (h, r) =>
      if fh_type h =? 0 then RdErr
      else if ((fh_type h =? PINGREQ) || (fh_type h =? DISCONNECT))%bool then RdMsg (fh_type h) (fh_flow h) [] r
      else if 2 ^ 31 <=? fh_len h then RdPanic
      else match readFull (N.to_nat (fh_len h)) r with
           | None => RdErr
           | Some (b, r) => if ((fh_flow h =? 0) && (UNSUBSCRIBE <? fh_type h))%bool then RdErr
                            else RdMsg (fh_type h) (fh_flow h) b r
           end
  end.
