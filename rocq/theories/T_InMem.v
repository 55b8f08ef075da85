(** Property C50, messages held in memory. *)
From Verif Require Import M_Bytes M_Entry M_MsgId M_Topic M_Trie M_MemDB M_Get M_IndexBlock M_BlockStore M_DB S_Trie S_MemDB S_DB S_Session S_Only P_MemEx P_DBEx P_SessionEx P_InMem.
Open Scope Z_scope.

(** Where memory holds what Put packed (C34), a read gives the payload to the
    contract of the message, and to no other. *)
Theorem C50_memory_partial : forall c gens ids s now e s1 e1 x cache s2 k, setting_ok c gens -> entry_fits ids e ->
  (forall id, In id ids -> length id = 16%nat /\ Forall is_byte id) -> (N.of_nat (length (u_payload e)) <= maxValueLength)%N -> (d_seq s + 1 < 2 ^ 64)%N ->
  set_entry c s now e = SOk s1 e1 x cache -> (e_topicSize x + 35 < 2 ^ 16)%N ->
  snd (mem_get (c_mem c) (d_mem s2) (e_seq x)) = GOk cache ->
  snd (read_one c k 0 s2 (e_seq x)) = if (k =? put_owner e)%N then OItem (u_payload e) else OSkip.
Proof. exact read_held. Qed.
Print Assumptions C50_memory_partial.

(** The first message of a topic has the topic with it. *)
Theorem C50_topic_partial : forall c gens ids s now e s1 e1 x cache, setting_ok c gens -> entry_fits ids e ->
  (forall id, In id ids -> length id = 16%nat /\ Forall is_byte id) ->
  u_hash e = None -> getOffset (d_trie s) (get_hash (owner (u_contract e)) (filed (owner (u_contract e)) (u_topic e))) = None ->
  set_entry c s now e = SOk s1 e1 x cache ->
  let raw := topic_marshal (t_parts (filed (owner (u_contract e)) (u_topic e))) (t_depth (filed (owner (u_contract e)) (u_topic e))) in
  (N.of_nat (length raw) + 35 < 2 ^ 16)%N -> topic_bytes cache (entrySize + idSize) (e_topicSize x) = Some raw.
Proof. exact topic_held. Qed.
Print Assumptions C50_topic_partial.

(** A message of "a.b" in a new database: memory holds what Put packed, with the
    topic in front, and the topic was not known before. *)
Example C50_memory_case :
  match fst (drun dx (Down no_files) [open_x T0]), fst (drun dx (Down no_files) [open_x T0; put_x T0 topA (pay 1)]) with
  | Up s, Up s2 =>
      match set_entry dx s T0 (newEntry topA (pay 1)) with
      | SOk s1 e1 x cache => snd (mem_get (c_mem dx) (d_mem s2) (e_seq x)) = GOk cache /\ (0 < e_topicSize x < 100)%N /\
          getOffset (d_trie s) (get_hash (owner 0) (filed (owner 0) topA)) = None /\
          snd (read_one dx MasterContract 0 s2 (e_seq x)) = OItem (pay 1) /\ snd (read_one dx 7 0 s2 (e_seq x)) = OSkip
      | _ => False
      end
  | _, _ => False
  end /\ entry_fits [] (newEntry topA (pay 1)).
Proof.
  split; [vm_compute; repeat split; reflexivity|].
  constructor; cbn [newEntry u_contract u_expires u_payload u_hash u_tsize u_id]; try discriminate; try reflexivity. repeat constructor.
Qed.
