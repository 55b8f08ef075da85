(** Byte strings and the fixed width little/big endian integer coding of Go's
    [encoding/binary].  Definitions only; lemmas are in [P_Bytes]. *)
From Coq Require Export List NArith ZArith Bool.
Export ListNotations.
Open Scope N_scope.

(** A Go byte slice is a list of numbers; [bytes_ok] says each is a [uint8]. *)
Definition bytes := list N.
Definition byte_ok (b : N) : Prop := b < 256.
Definition bytes_ok (l : bytes) : Prop := Forall byte_ok l.
Definition bytes_okb (l : bytes) : bool := forallb (fun b => b <? 256) l.

(** [binary.LittleEndian.PutUintK]: the [k] low bytes of [v], low byte first.
    Higher bits are cut off, as a conversion to the k byte type does. *)
Fixpoint le (k : nat) (v : N) : bytes :=
  match k with
  | O => []
  | S k' => v mod 256 :: le k' (v / 256)
  end.

(** [binary.LittleEndian.UintK] of a slice of the right length. *)
Fixpoint unle (l : bytes) : N :=
  match l with
  | [] => 0
  | b :: l' => b + 256 * unle l'
  end.

(** [binary.BigEndian] coding. *)
Definition be (k : nat) (v : N) : bytes := rev (le k v).
Definition unbe (l : bytes) : N := unle (rev l).

(** Go slice expression [l[off:off+n]]; the model never reads past the end
    silently where the code would panic: callers check the length. *)
Definition slice (l : bytes) (off n : nat) : bytes := firstn n (skipn off l).

(** Go fixed width integer conversions. *)
Definition u8 (v : N) : N := v mod 2 ^ 8.
Definition u16 (v : N) : N := v mod 2 ^ 16.
Definition u32 (v : N) : N := v mod 2 ^ 32.
Definition u64 (v : N) : N := v mod 2 ^ 64.

(** Signed interpretation of a [k]-bit pattern (Go conversion uintK -> intK)
    and back. *)
Definition to_signed (k : N) (v : N) : Z :=
  if v <? 2 ^ (k - 1) then Z.of_N v else (Z.of_N v - 2 ^ Z.of_N k)%Z.
Definition to_unsigned (k : N) (z : Z) : N := Z.to_N (z mod 2 ^ Z.of_N k)%Z.

(** Block length, block.go:25 [blockSize], as a [nat] that is not a unary numeral. *)
Notation blockBytes := (N.to_nat 4096%N).
