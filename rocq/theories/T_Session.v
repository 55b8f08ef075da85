(** Properties of whole sessions: C61, C62. *)
From Verif Require Import M_Bytes M_Bloom M_MemDB M_Window M_DB S_MemDB S_DB S_Session P_Session5 P_MemEx P_DBEx P_SessionEx.
Open Scope Z_scope.

(** C61: after Open of a new database, whatever is put, read and done in the
    background, without Sync: every put succeeds, and every Get gives the payloads
    of exactly the messages put so far that the topic matches and that have not
    expired, the newest first. *)
Theorem C61_session : forall c gens t ord immut enc ops, setting_ok c gens -> 0 <= t -> session_ok c t [] ops -> (N.of_nat (length ops) <= 130000)%N ->
  Forall (fun o => syncs o = false) ops ->
  exists outs, snd (drun c (Down no_files) (DoOpen gens t ord immut enc :: map as_dop ops)) = OOpened true :: outs /\ answered None [] ops outs.
Proof. exact session_unsynced. Qed.
Print Assumptions C61_session.

(** C62: the same with Sync at any point, for all topics but one; and of that
    one too, every Get gives only payloads of its own messages. *)
Theorem C62_session_partial : forall c gens t ord immut enc ops, setting_ok c gens -> 0 <= t -> session_ok c t [] ops -> (N.of_nat (length ops) <= 130000)%N ->
  exists first outs, snd (drun c (Down no_files) (DoOpen gens t ord immut enc :: map as_dop ops)) = OOpened true :: outs /\
    (Forall (fun o => syncs o = false) ops -> first = None) /\ answered first [] ops outs.
Proof. exact session. Qed.
Print Assumptions C62_session_partial.

(** A session in three contracts and topics with wildcards, two syncs. *)
Example C62_example : setting_ok dx [ex_gen] /\ session_ok dx T0 [] sess /\
  snd (drun dx (Down no_files) (DoOpen [ex_gen] T0 (fun m => m) false false :: map as_dop sess)) = sess_outs.
Proof. split; [exact dx_ok|]. split; [exact sess_ok|exact sess_run]. Qed.

(** C103: C62_session_partial holds as long as the pool hands out new buffers.  The
    store keeps the blocks it has read from, also after a Sync has given their
    buffers back: a topic to which one message was put, and which was read before
    and after the Sync, gives the payload of a message of another topic ... *)
Theorem C103_refuted : exists c gens t topic p p' ops1 ops2 outs1 outs2, setting_ok c gens /\ p <> p' /\
  Forall (fun o => match o with DoPut _ e => u_topic e = topic <-> u_payload e = p | DoGet _ _ _ | DoTick _ _ | DoCommit | DoSync _ _ => True | _ => False end) (ops1 ++ ops2) /\
  snd (drun c (Down no_files) (DoOpen gens t (fun m => m) false false :: ops1 ++ [get_x (t + sec) topic] ++ ops2 ++ [get_x (t + 2 * sec) topic])) =
    OOpened true :: outs1 ++ [OGot (QItems [p])] ++ outs2 ++ [OGot (QItems [p'])] /\
  length outs1 = length ops1 /\ length outs2 = length ops2.
Proof.
  exists dx, [ex_gen], T0, topA, (pay 1), (pay 2), read1, read2, [ORes DOk; ORes DOk; got [1%N]; ODone; ODone; ORes DOk], [ODone; ORes DOk].
  split; [exact dx_ok|]. split; [discriminate|]. split.
  { repeat (apply Forall_cons; [first [exact I | split; [intros E; first [discriminate E | reflexivity] | intros E; first [discriminate E | reflexivity]]]|]). apply Forall_nil. }
  split; [exact reread_run|]. split; reflexivity.
Qed.
Print Assumptions C103_refuted.
(** ... or the Get ends the process. *)
Theorem C103_panic_refuted : exists c gens t topic p ops1 ops2 outs1 outs2, setting_ok c gens /\
  Forall (fun o => match o with DoPut _ _ | DoGet _ _ _ | DoTick _ _ | DoCommit | DoSync _ _ => True | _ => False end) (ops1 ++ ops2) /\
  snd (drun c (Down no_files) (DoOpen gens t (fun m => m) false false :: ops1 ++ [get_x (t + sec) topic] ++ ops2 ++ [get_x (t + 2 * sec) topic])) =
    OOpened true :: outs1 ++ [OGot (QItems [p])] ++ outs2 ++ [OGot QPanic] /\
  length outs1 = length ops1 /\ length outs2 = length ops2.
Proof.
  exists dx, [ex_gen], T0, topA, (pay 1), read3, read4, [ORes DOk; ORes DOk; got [1%N]; ODone; ODone; ORes DOk], [ODone; ORes DOk; ORes DOk].
  split; [exact dx_ok|]. split; [repeat (apply Forall_cons; [exact I|]); apply Forall_nil|].
  split; [exact repanic_run|]. split; reflexivity.
Qed.
Print Assumptions C103_panic_refuted.
