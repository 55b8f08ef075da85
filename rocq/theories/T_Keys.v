(** Security keys and client identifiers: C40, C48. *)
From Verif Require Import M_Bytes M_Hash M_Base32 M_Mac M_Topic M_Keys S_Keys P_Bytes P_Mac P_Keys P_Keys2.
Open Scope N_scope.

(** C40: a key asked for decodes to the permissions asked for, is good for its
    topic and contract, and says whether the topic has wildcards. *)
Theorem C40_keygen : forall contract topic ty, levels_ok topic -> exists text k,
  on_keygen contract topic ty = Some text /\ length text = 13%nat /\ decode_key text = Some k /\
  (has_permission k AllowRead = true <-> may_read ty) /\ (has_permission k AllowWrite = true <-> may_write ty) /\
  fst (validate_topic k contract topic) = true /\ (snd (validate_topic k contract topic) = true <-> wild topic).
Proof. exact keygen_spec. Qed.
Print Assumptions C40_keygen.

(** A subscription to the topic, with or without options, is allowed exactly if
    the key has the right to read. *)
Theorem C40_subscribe : forall contract topic ty, levels_ok topic -> name_ok topic -> exists text, on_keygen contract topic ty = Some text /\
  (may_read ty -> exists t, on_subscribe false contract (request text topic) = VAllowed t /\ st_name t = topic) /\
  (may_read ty -> forall opts, ~ In 47 opts -> exists t, on_subscribe false contract (request_opt text topic opts) = VAllowed t /\ st_name t = topic) /\
  (~ may_read ty -> on_subscribe false contract (request text topic) = VRefused ErrUnauthorized).
Proof. exact subscribe_generated. Qed.
Print Assumptions C40_subscribe.

(** The key opens another topic only if the two have the same hash, or if it was
    made for a topic of stars only with the hash of "...". *)
Theorem C40_scope_partial : forall contract topic ty text topic', levels_ok topic -> name_ok topic' ->
  on_keygen contract topic ty = Some text ->
  (exists t, on_subscribe false contract (request text topic') = VAllowed t) ->
  may_read ty /\ (hash_be topic' contract = hash_be topic contract \/ (wild topic /\ all_stars topic) /\ hash_be topic contract = hash_be dots contract).
Proof. exact scope_generated. Qed.
Print Assumptions C40_scope_partial.

(** Publishing: for topics without wildcards only; the right asked for is that
    to read. *)
Theorem C40_publish_partial : forall contract topic ty, levels_ok topic -> name_ok topic -> may_read ty ->
  exists text, on_keygen contract topic ty = Some text /\
  (~ wild topic -> exists t, on_publish false contract (request text topic) = VAllowed t /\ st_name t = topic) /\
  (wild topic -> on_publish false contract (request text topic) = VRefused ErrForbidden).
Proof. exact publish_generated. Qed.
Print Assumptions C40_publish_partial.
Theorem C40_publish_scope_partial : forall contract topic ty text topic', levels_ok topic -> name_ok topic' ->
  on_keygen contract topic ty = Some text ->
  (exists t, on_publish false contract (request text topic') = VAllowed t) ->
  may_read ty /\ ~ wild topic /\ hash_be topic' contract = hash_be topic contract.
Proof. exact scope_publish. Qed.
Print Assumptions C40_publish_scope_partial.

(** A key of any other length is refused. *)
Theorem C40_length : forall contract key topic, key <> [] -> ~ In 47 key -> name_ok topic -> length key <> 13%nat ->
  on_subscribe false contract (request key topic) = VRefused ErrBadRequest /\
  (key <> kUnitdb -> on_publish false contract (request key topic) = VRefused ErrBadRequest).
Proof. exact bad_key. Qed.
Print Assumptions C40_length.

(** "tea" *)
Example C40_example : let topic := [116; 101; 97] in levels_ok topic /\ name_ok topic /\ may_read [114] /\ ~ wild topic.
Proof.
  cbv zeta. split; [unfold levels_ok; cbn; repeat constructor|]. split.
  - split; [discriminate|]. cbn. split; intuition discriminate.
  - split; [right; right; now left|]. apply wildb_false. reflexivity.
Qed.

(** The two special requests, "unitdb/clientid" and "unitdb/keygen", need no key. *)
Example C40_special : exists t1 t2,
  on_publish false 77 (request kUnitdb [99; 108; 105; 101; 110; 116; 105; 100]) = VSpecial t1 /\ on_special t1 = SClientId /\
  on_publish false 77 (request kUnitdb [107; 101; 121; 103; 101; 110]) = VSpecial t2 /\ on_special t2 = SKeygen.
Proof. do 2 eexists. split; [vm_compute; reflexivity|]. split; [vm_compute; reflexivity|]. split; vm_compute; reflexivity. Qed.

(** False in general: who asked for the right to read only may publish, who
    asked for the right to write only may not. *)
Theorem C40_write_refuted : exists contract topic r w t,
  on_keygen contract topic [114] = Some r /\ on_keygen contract topic [119] = Some w /\
  ~ may_write [114] /\ may_write [119] /\
  on_publish false contract (request r topic) = VAllowed t /\
  on_publish false contract (request w topic) = VRefused ErrUnauthorized.
Proof.
  exists 77, [116; 101; 97]. do 3 eexists. split; [vm_compute; reflexivity|]. split; [vm_compute; reflexivity|].
  split; [unfold may_write; cbn; intuition discriminate|]. split; [right; right; now left|].
  split; vm_compute; reflexivity.
Qed.
Print Assumptions C40_write_refuted.

(** The key for "bdxap" opens "eqatd". *)
Theorem C40_collision_refuted : exists contract topic topic' key t, topic <> topic' /\ ~ wild topic /\
  on_keygen contract topic [114] = Some key /\ on_publish false contract (request key topic') = VAllowed t /\ st_name t = topic'.
Proof.
  exists MasterContract, [98; 100; 120; 97; 112], [101; 113; 97; 116; 100]. do 2 eexists. split; [discriminate|].
  split; [apply wildb_false; reflexivity|]. split; [vm_compute; reflexivity|]. split; vm_compute; reflexivity.
Qed.
Print Assumptions C40_collision_refuted.

(** Keys of topics of at most two characters are the same for all contracts. *)
Theorem C40_short_refuted : forall c1 c2 topic ty, (length topic <= 2)%nat -> c1 <> 0 -> c2 <> 0 ->
  on_keygen c1 topic ty = on_keygen c2 topic ty.
Proof. exact short_keys. Qed.
Print Assumptions C40_short_refuted.

(** A request without key and topic makes the handler panic. *)
Theorem C40_panic_refuted : forall insecure contract,
  on_subscribe insecure contract [] = VPanic /\ on_publish insecure contract [47] = VPanic.
Proof. split; reflexivity. Qed.
Print Assumptions C40_panic_refuted.

(** C48: setting one field of an identifier sets it and leaves the others. *)
Theorem C48_fields : forall id v, id_ok id ->
  fields_of (set_epoch id v) = (v mod 2 ^ 32, id_primary id, id_permissions id, id_contract id) /\
  fields_of (set_primary id v) = (id_epoch id, v mod 2 ^ 16, id_permissions id, id_contract id) /\
  fields_of (set_permissions id v) = (id_epoch id, id_primary id, v mod 2 ^ 8, id_contract id) /\
  fields_of (set_contract id v) = (id_epoch id, id_primary id, id_permissions id, v mod 2 ^ 32).
Proof. exact set_get. Qed.
Print Assumptions C48_fields.
Theorem C48_new : forall e c m, fields_of (new_client_id e c m) = (e mod 2 ^ 32, m mod 2 ^ 16, 1, c mod 2 ^ 32).
Proof. exact new_client_fields. Qed.
Print Assumptions C48_new.

(** The text of an identifier, even with more text behind it, decodes to it. *)
Theorem C48_roundtrip : forall m id, mac_fine m -> id_ok id -> exists text, id_encode m id = Some text /\ length text = 52%nat /\
  forall more, id_decode m (text ++ more) = Some id.
Proof. exact id_text. Qed.
Print Assumptions C48_roundtrip.

(** A primary identifier gets secondary ones of its contract, which get none. *)
Theorem C48_secondary : forall m e c e2 id, mac_fine m -> id_ok id -> is_primary id = true ->
  exists text id', on_client_id m e c e2 id = Some text /\ id_decode m text = Some id' /\
    is_primary id' = false /\ id_contract id' = id_contract id /\ forall e' c' e2', on_client_id m e' c' e2' id' = None.
Proof. exact request_secondary. Qed.
Print Assumptions C48_secondary.

(** Identifiers with any other permissions than 1 get none. *)
Theorem C48_primary : forall m e c e2 id, id_permissions id <> 1 -> on_client_id m e c e2 id = None.
Proof. exact only_primary. Qed.
Print Assumptions C48_primary.

(** A connection works with the identifier it presents, unless four characters
    of it are in the cache. *)
Theorem C48_connect_partial : forall m cch e c id text, mac_fine m -> id_ok id -> id_encode m id = Some text ->
  cache_load cch (text_signature text) = None ->
  exists cch', on_connect m cch e c text = CAccepted id cch' /\
    (is_primary id = true -> cch' = cch) /\
    (is_primary id = false -> cache_load cch' (text_signature text) = Some (id_contract id)).
Proof. exact accept. Qed.
Print Assumptions C48_connect_partial.

(** A text that is no identifier is refused, unless four characters of it are in
    the cache; the answer is a new primary identifier. *)
Theorem C48_refused_partial : forall m cch e c text, cache_load cch (text_signature text) = None ->
  (length text < 52)%nat \/ fst (mac_decrypt m (decode32 text)) = None ->
  exists id, on_connect m cch e c text = CRefused id /\ fields_of id = (e mod 2 ^ 32, 1, 1, c mod 2 ^ 32).
Proof. exact refuse. Qed.
Print Assumptions C48_refused_partial.

Example C48_example : mac_fine toy_mac /\ id_ok (new_client_id 5 9 1) /\ is_primary (new_client_id 5 9 1) = true /\
  id_ok (new_secondary_id 5 9 6 (new_client_id 5 9 1)) /\ is_primary (new_secondary_id 5 9 6 (new_client_id 5 9 1)) = false.
Proof.
  split; [exact toy_fine|]. split; [apply new_client_ok|]. split; [reflexivity|]. split; [|reflexivity].
  apply secondary_spec, new_client_ok.
Qed.

(** False in general: once a secondary identifier was used, every text of more
    than 20 characters that agrees with its text in four of them is accepted for
    its contract, *)
Theorem C48_cache_refuted : forall m cch e c id text, mac_fine m -> id_ok id -> is_primary id = false -> id_encode m id = Some text ->
  cache_load cch (text_signature text) = None ->
  exists cch', on_connect m cch e c text = CAccepted id cch' /\
  forall fake e' c', (20 < length fake)%nat -> firstn 4 (skipn 4 fake) = firstn 4 (skipn 4 text) ->
    exists id', on_connect m cch' e' c' fake = CAccepted id' cch' /\ id_contract id' = id_contract id.
Proof. exact forged. Qed.
Print Assumptions C48_cache_refuted.
(** and there are such texts that are no identifiers. *)
Theorem C48_forged_refuted : forall m text fill, (8 <= length text)%nat -> (length fill = 13)%nat ->
  let fake := firstn 8 text ++ fill in
  length fake = 21%nat /\ firstn 4 (skipn 4 fake) = firstn 4 (skipn 4 text) /\ id_decode m fake = None.
Proof. exact forged_text. Qed.
Print Assumptions C48_forged_refuted.
