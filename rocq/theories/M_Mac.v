(** Model of crypto/mac.go over an abstract authenticated cipher. *)
From Verif Require Import M_Bytes M_Hash.
Open Scope N_scope.

(** The chacha20poly1305 cipher is outside the repository.  [aead_ok] is what
    the proofs use of it: opening what was sealed under the same nonce gives
    the plaintext back, sealing adds 16 bytes, opening returns 16 bytes less. *)
Record aead := mkAead {
  seal : bytes -> bytes -> bytes;          (* nonce, plaintext *)
  unseal : bytes -> bytes -> option bytes  (* nonce, ciphertext *)
}.
Definition aead_ok (A : aead) : Prop :=
  (forall n p, unseal A n (seal A n p) = Some p) /\
  (forall n p, length (seal A n p) = (length p + 16)%nat) /\
  (forall n c p, unseal A n c = Some p -> length c = (length p + 16)%nat).

(** crypto/mac.go:29-31 *)
Definition EpochSize : nat := 4.
Definition MessageOffset : nat := 8.

Record mac := mkMac { m_parent : aead; m_salt : bytes }.

(** crypto/mac.go:43-60 [New]: the key must have 32 bytes; the byte shifts by
    8 and more are zero, so each salt byte is the fourth byte of its group. *)
Definition mac_new (A : bytes -> aead) (key : bytes) : option mac :=
  if Nat.eqb (length key) 32
  then Some (mkMac (A key) [nth 3 key 0; nth 7 key 0; nth 11 key 0; nth 15 key 0])
  else None.

(** crypto/mac.go:73-80 [Signature] *)
Definition mac_signature (h : N) : bytes :=
  [u8 (N.shiftr h 24); u8 (N.shiftr h 16); u8 (N.shiftr h 8); u8 h].

(** crypto/mac.go:84-91 [Encrypt] with dst = nil, as it is called
    (db_internal.go:295).  [src[4:]] panics for a shorter slice: [None]. *)
Definition mac_encrypt (m : mac) (src : bytes) : option bytes :=
  if Nat.ltb (length src) EpochSize then None
  else let dst := firstn EpochSize src ++ mac_signature (hash_new src) in
       let nonce := m_salt m ++ firstn MessageOffset dst in
       Some (dst ++ seal (m_parent m) nonce (skipn EpochSize src)).

(** crypto/mac.go:64: [Overhead] of the cipher is 16. *)
Definition mac_overhead : nat := 20.

(** crypto/mac.go:96-110 [Decrypt] with dst = nil.  [src[:8]] panics below 8
    bytes, excluded by the length check.  Line 108 appends to [src[:4]]; the
    capacity of src suffices, so the plaintext overwrites the bytes of [src].
    The result pairs the returned value ([None] = error) with the content of
    the caller's slice afterwards. *)
Definition mac_decrypt (m : mac) (src : bytes) : option bytes * bytes :=
  if Nat.ltb (length src) mac_overhead then (None, src)
  else let nonce := m_salt m ++ firstn MessageOffset src in
       match unseal (m_parent m) nonce (skipn MessageOffset src) with
       | None => (None, src)
       | Some p => let out := firstn EpochSize src ++ p in
                   (Some out, out ++ skipn (length out) src)
       end.
