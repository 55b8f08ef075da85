(** What is said about security keys and client identifiers. *)
From Verif Require Import M_Bytes M_Hash M_Base32 M_Mac M_Topic M_Keys.
Open Scope N_scope.

(** A topic text with wildcards: it ends with three dots, or one of its levels
    ends with a star. *)
Definition wild (topic : bytes) : Prop :=
  (exists p, topic = p ++ [46; 46; 46]) \/
  (exists p r, topic = p ++ 42 :: r /\ (r = [] \/ exists r', r = 46 :: r')).

(** Every level ends with a star. *)
Definition all_stars (topic : bytes) : Prop :=
  forall p c r, topic = p ++ c :: r -> c <> 46 -> (r = [] \/ exists r', r = 46 :: r') -> c = 42.

(** At most 23 levels, as at most 22 dots separate them. *)
Definition levels_ok (topic : bytes) : Prop := (count_occ N.eq_dec topic 46%N <= 22)%nat.

(** A topic that can follow a key: not empty, without slash or question mark. *)
Definition name_ok (topic : bytes) : Prop := topic <> [] /\ ~ In 47 topic /\ ~ In 63 topic.

(** The letters of a key request that give the right to read, to write. *)
Definition may_read (ty : bytes) : Prop := In 111 ty \/ In 97 ty \/ In 114 ty.
Definition may_write (ty : bytes) : Prop := In 111 ty \/ In 97 ty \/ In 119 ty.

(** A request as clients write it: key, slash, topic, and options. *)
Definition request (key topic : bytes) : bytes := key ++ 47 :: topic.
Definition request_opt (key topic opts : bytes) : bytes := key ++ 47 :: topic ++ 63 :: opts.

(** An identifier *)
Definition id_ok (id : bytes) : Prop := length id = 12%nat /\ bytes_ok id.

Definition fields_of (id : bytes) := (id_epoch id, id_primary id, id_permissions id, id_contract id).

(** What is needed of the cipher besides [aead_ok]: it turns bytes into bytes. *)
Definition seal_bytes (A : aead) : Prop := forall n p, bytes_ok p -> bytes_ok (seal A n p).
Definition mac_fine (m : mac) : Prop := aead_ok (m_parent m) /\ seal_bytes (m_parent m).
