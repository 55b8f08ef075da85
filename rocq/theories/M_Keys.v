(** Model of the server's security keys (server/internal/message/security/key.go),
    client identifiers (server/internal/pkg/uid/clientid.go) and of the checks
    made with them in server/internal/hdl_conn.go. *)
From Verif Require Import M_Bytes M_Hash M_Base32 M_Mac M_Topic.
Open Scope N_scope.

(** server/internal/pkg/hash/hash.go:63-78: as hash/hash.go, but the salt is
    written big endian. *)
Definition shuffle_be (text : bytes) (contract : N) : bytes :=
  if contract =? 0 then text
  else shuffle_loop (length text - 1) 0 0 (be 4 contract) text.
(** server/internal/pkg/hash/hash.go:32-35 [WithSalt] *)
Definition hash_be (text : bytes) (contract : N) : N := hash_new (shuffle_be text contract).

(** key.go:29-34 *)
Definition AllowNone : N := 0.
Definition AllowOwner : N := 2.
Definition AllowAdmin : N := 4.
Definition AllowRead : N := 8.
Definition AllowWrite : N := 16.
Definition AllowReadWrite : N := 24.
Definition cSlash : N := 47.
Definition dots : bytes := [cDot; cDot; cDot].
Definition star : bytes := [cStar].

(** key.go:76 a key is a slice of 8 bytes: permissions, bit path (3), target (4).
    The reads below are in range because GenerateKey and DecodeKey make slices
    of that length. *)
(** key.go:84-86 *)
Definition key_permissions (k : bytes) : N := nth 0 k 0.
(** key.go:126-127 *)
Definition key_path (k : bytes) : N := unbe (firstn 3 (skipn 1 k)).
Definition key_target (k : bytes) : N := unbe (firstn 4 (skipn 4 k)).
(** key.go:188-191 *)
Definition has_permission (k : bytes) (flag : N) : bool := N.land (key_permissions k) flag =? flag.

(** key.go:145-171 the bit path of [SetTarget] for the parts of a topic *)
Fixpoint path_bits (idx : N) (parts : list bytes) (acc : N) : N :=
  match parts with
  | [] => acc
  | p :: r =>
      path_bits (idx + 1) r
        (if negb (has_suffix p star) && negb (has_suffix p dots) then N.lor acc (N.shiftl 1 (22 - idx)) else acc)
  end.
Definition bit_path (topic : bytes) (parts : list bytes) : N :=
  let p0 := if has_suffix topic dots then 0 else 2 ^ 23 in
  let p1 := if existsb (fun p => has_suffix p star) parts then 0 else p0 in
  path_bits 0 parts p1.

(** key.go:143-185 [SetTarget] on a key whose first byte is [perm]; [None] is
    ErrTargetTooLong. *)
Definition set_target (perm contract : N) (topic : bytes) : option bytes :=
  let parts := fields cDot topic in
  if Nat.ltb 23 (length parts) then None
  else Some (perm :: be 3 (bit_path topic parts) ++ be 4 (hash_be topic contract)).

(** key.go:210-213, 230-233, clientid.go:98-101, 127-130: the bytes from the third
    on are combined with the first two in turn. *)
Fixpoint xor_pairs (a b : N) (l : bytes) : bytes :=
  match l with
  | x :: y :: r => N.lxor x a :: N.lxor y b :: xor_pairs a b r
  | _ => l
  end.
Definition xor_salt (l : bytes) : bytes :=
  match l with
  | a :: b :: r => a :: b :: xor_pairs a b r
  | _ => l
  end.

(** key.go:204-218 [Encode] *)
Definition key_encode (k : bytes) : bytes := encode8 (xor_salt k).
(** key.go:220-237 [DecodeKey]; [None] is the error. *)
Definition decode_key (text : bytes) : option bytes :=
  if Nat.eqb (length text) 13 then Some (xor_salt (decode8 text)) else None.
(** key.go:194-202 [GenerateKey]; [SetPermissions] (89-91) keeps the low byte. *)
Definition generate_key (contract : N) (topic : bytes) (permissions : N) : option bytes :=
  match set_target (u8 permissions) contract topic with
  | Some k => Some (key_encode k)
  | None => None
  end.

(** key.go:124-140 [ValidateTopic]: allowed, wildcard *)
Definition validate_topic (k : bytes) (contract : N) (topic : bytes) : bool * bool :=
  if key_path k =? 0 then
    if key_target k =? hash_be dots contract then (true, true)
    else (key_target k =? hash_be topic contract, true)
  else (hash_be topic contract =? key_target k, N.land (N.shiftr (key_path k) 23) 1 =? 0).

(** key.go:68-73 [Topic] *)
Record stopic := mkST { st_key : bytes; st_topic : bytes; st_size : nat; st_invalid : bool }.
Definition st_name (t : stopic) : bytes := firstn (st_size t) (st_topic t).

(** key.go:99-121 [ParseKey]; [None]: line 106 reads parts[0] of an empty slice
    and panics. *)
Definition parse_skey (text : bytes) : option stopic :=
  match fields cSlash text with
  | [] => None
  | [p] => Some (mkST [] p (length p) false)
  | k :: p :: _ =>
      match fields cQuest p with
      | [] => Some (mkST k p 0 true)
      | q :: _ => Some (mkST k p (length q) false)
      end
  end.

(** types.go:60-78 [KeyGenRequest.Access] *)
Fixpoint access_loop (acc : N) (ty : bytes) : N :=
  match ty with
  | [] => acc
  | c :: r =>
      access_loop
        (if c =? 111 then N.lor acc (N.lor (N.lor AllowOwner AllowAdmin) AllowReadWrite)
         else if c =? 97 then N.lor acc (N.lor AllowAdmin AllowReadWrite)
         else if c =? 114 then N.lor acc AllowRead
         else if c =? 119 then N.lor acc AllowWrite
         else acc) r
  end.
Definition access (ty : bytes) : N := access_loop AllowNone ty.

(** hdl_conn.go:558-580 [onKeyGen] for one request of the list; the contract is
    that of the connection. *)
Definition on_keygen (contract : N) (topic ty : bytes) : option bytes := generate_key contract topic (access ty).

(** types.go:39-53 *)
Inductive serr := ErrBadRequest | ErrUnauthorized | ErrForbidden.

(** hdl_conn.go:489-507 [onSecureRequest]: error, or the wildcard flag *)
Definition on_secure (contract : N) (t : stopic) : serr + bool :=
  match decode_key (st_key t) with
  | None => inl ErrBadRequest
  | Some k =>
      if negb (has_permission k AllowRead) then inl ErrUnauthorized
      else let (ok, wildcard) := validate_topic k contract (st_name t) in
           if ok then inr wildcard else inl ErrUnauthorized
  end.

(** What a request comes to before it acts: *)
Inductive verdict :=
| VPanic                    (* the handler panics *)
| VRefused (e : serr)
| VSpecial (t : stopic)     (* hdl_conn.go:449-452 *)
| VAllowed (t : stopic).

(** hdl_conn.go:384-396 [onSubscribe], the same in [onRelay] (354-366) and
    [onUnsubscribe] (413-425) *)
Definition on_subscribe (insecure : bool) (contract : N) (text : bytes) : verdict :=
  match parse_skey text with
  | None => VPanic
  | Some t =>
      if st_invalid t then VRefused ErrBadRequest
      else if insecure then VAllowed t
      else match on_secure contract t with inl e => VRefused e | inr _ => VAllowed t end
  end.

Definition kUnitdb : bytes := [117; 110; 105; 116; 100; 98].

(** hdl_conn.go:441-463 [onPublish] for one message *)
Definition on_publish (insecure : bool) (contract : N) (text : bytes) : verdict :=
  match parse_skey text with
  | None => VPanic
  | Some t =>
      if st_invalid t then VRefused ErrBadRequest
      else if list_eq_dec N.eq_dec (st_key t) kUnitdb then VSpecial t
      else if insecure then VAllowed t
      else match on_secure contract t with
           | inl e => VRefused e
           | inr true => VRefused ErrForbidden
           | inr false => VAllowed t
           end
  end.

(** hdl_conn.go:41-42, message/sub.go:34 *)
Definition requestClientId : N := 2682859131.
Definition requestKeygen : N := 812942072.
Definition MasterContract : N := 3376684800.
Inductive special := SNotFound | SClientId | SKeygen.
(** hdl_conn.go:510-537 [onSpecialRequest], [Target] key.go:94-96 *)
Definition on_special (t : stopic) : special :=
  if Nat.ltb (length (st_name t)) 1 then SNotFound
  else let h := hash_be (st_name t) MasterContract in
       if h =? requestClientId then SClientId
       else if h =? requestKeygen then SKeygen else SNotFound.

(** ** Client identifiers, clientid.go

    An identifier is a slice of 12 bytes: epoch (4), primary (3, of which a
    uint16 fills two), permissions (1), contract (4). *)
Definition rawLen : nat := 12.
Definition zeros : bytes := repeat 0 rawLen.
Definition put (l : bytes) (i : nat) (v : bytes) : bytes := firstn i l ++ v ++ skipn (i + length v) l.
(** clientid.go:45-47, 50-55 *)
Definition id_epoch (id : bytes) : N := unbe (firstn 4 id).
Definition set_epoch (id : bytes) (v : N) : bytes := put id 0 (be 4 v).
(** clientid.go:58-60: [uint16(id[4])<<16] is 0; 63-67: [value >> 16] is 0. *)
Definition id_primary (id : bytes) : N := unbe (firstn 2 (skipn 5 id)).
Definition set_primary (id : bytes) (v : N) : bytes := put id 4 (0 :: be 2 v).
(** clientid.go:70-77 *)
Definition id_permissions (id : bytes) : N := nth 7 id 0.
Definition set_permissions (id : bytes) (v : N) : bytes := put id 7 [u8 v].
(** clientid.go:80-90 *)
Definition id_contract (id : bytes) : N := unbe (firstn 4 (skipn 8 id)).
Definition set_contract (id : bytes) (v : N) : bytes := put id 8 (be 4 v).
(** clientid.go:40-42 *)
Definition is_primary (id : bytes) : bool := id_permissions id =? 1.

(** clientid.go:92-108 [Encode]; Encrypt panics below 4 bytes only. *)
Definition id_encode (m : mac) (id : bytes) : option bytes :=
  match mac_encrypt m (xor_salt id) with
  | None => None
  | Some c => Some (encode32 c)
  end.
(** clientid.go:110-135 [Decode]; [None] is an error.  Decode32 works in place;
    it reads ahead of what it writes.  [key[0:12]] would panic on a shorter
    plaintext; 32 bytes of ciphertext hold 12. *)
Definition id_decode (m : mac) (text : bytes) : option bytes :=
  if Nat.ltb (length text) 52 then None
  else match fst (mac_decrypt m (decode32 text)) with
       | None => None
       | Some key => Some (xor_salt (firstn rawLen key))
       end.

(** clientid.go:138-150 [NewClientID]; epoch: the clock, contract: the random
    source. *)
Definition new_client_id (epoch contract master : N) : bytes :=
  set_contract (set_permissions (set_primary (set_epoch zeros epoch) master) 1) contract.
(** clientid.go:153-163 [NewSecondaryClientID]; the clock is read twice. *)
Definition new_secondary_id (epoch contract epoch2 : N) (master : bytes) : bytes :=
  set_contract (set_permissions (set_epoch (new_client_id epoch contract 1) epoch2) 0) (id_contract master).
(** clientid.go:166-174 [CachedClientID] *)
Definition cached_id (epoch contract : N) (c : N) : bytes :=
  set_contract (set_permissions (new_client_id epoch contract 1) 0) c.

(** The cache of the service: sync.Map from the four characters to the contract. *)
Notation cache := (list (N * N)) (only parsing).
Fixpoint cache_load (c : cache) (k : N) : option N :=
  match c with
  | [] => None
  | (k', v) :: r => if k' =? k then Some v else cache_load r k
  end.
Definition load_or_store (c : cache) (k v : N) : cache :=
  match cache_load c k with Some _ => c | None => (k, v) :: c end.

(** crypto/mac.go:67-69 of bytes 4..7 of the text *)
Definition text_signature (text : bytes) : N := unbe (firstn 4 (skipn 4 text)).

(** hdl_conn.go:313-345 [onConnect].  [epoch] and [contract] stand for the clock
    and the random source.  The result: [CPanic], the identifier the connection
    works with, or a new primary identifier that is sent back while the
    connection is refused (118-121). *)
Inductive connected :=
| CPanic
| CAccepted (id : bytes) (c : cache)
| CRefused (id : bytes).
Definition on_connect (m : mac) (c : cache) (epoch contract : N) (text : bytes) : connected :=
  match (if Nat.ltb mac_overhead (length text) then cache_load c (text_signature text) else None) with
  | Some k => CAccepted (cached_id epoch contract k) c
  | None =>
      match id_decode m text with
      | None => CRefused (new_client_id epoch contract 1)
      | Some id =>
          if is_primary id then CAccepted id c
          else match id_encode m id with
               | None => CPanic
               | Some t => CAccepted id (load_or_store c (text_signature t) (id_contract id))
               end
      end
  end.

(** hdl_conn.go:540-555 [onClientIDRequest]: [None] is ErrClientIdForbidden. *)
Definition on_client_id (m : mac) (epoch contract epoch2 : N) (id : bytes) : option bytes :=
  if is_primary id then id_encode m (new_secondary_id epoch contract epoch2 id) else None.
