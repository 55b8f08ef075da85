(** Properties of the database: C23-C33, C54-C60. *)
From Verif Require Import M_Bytes M_Bloom M_MsgId M_Query M_Topic M_Trie M_MemDB M_Window M_Get M_DB S_Get S_DB P_Get P_DB P_MemEx P_DBEx.
From Coq Require Import Sorted.
Open Scope Z_scope.

(** C23: no Get, from any state, gives more than its limit.  [g_cap] is the
    capacity Go chose for the slice of entries. *)
Theorem C23_limit : forall c s now g q s' q' l, (forall w, Z.of_nat (length w) <= g_cap g w) ->
  (db_get c s now g q = (s', q', QItems l) \/ exists e, db_get c s now g q = (s', q', QErr l e)) ->
  Z.of_nat (length l) <= Z.max 0 (q_limit q').
Proof. exact db_get_limit. Qed.
Print Assumptions C23_limit.
(** That limit is the one of the query, if the topic has no option "last". *)
Theorem C23_given : forall c s now g q s' q' l, (forall w, Z.of_nat (length w) <= g_cap g w) -> 0 < q_limit q ->
  topic_last (c_pd c) now (t_options (parse_topic (if (q_contract q =? 0)%N then MasterContract else q_contract q) (q_topic q))) = None ->
  (db_get c s now g q = (s', q', QItems l) \/ exists e, db_get c s now g q = (s', q', QErr l e)) ->
  Z.of_nat (length l) <= q_limit q.
Proof. exact db_get_given. Qed.
Print Assumptions C23_given.

(** C24: what a Get gives is in decreasing order of sequence numbers. *)
Theorem C24_order : forall c s now g q s' q' l, (forall w, Z.of_nat (length w) <= g_cap g w) ->
  (db_get c s now g q = (s', q', QItems l) \/ exists e, db_get c s now g q = (s', q', QErr l e)) ->
  exists rs, StronglySorted N.ge rs /\
    Forall2 (fun k v => exists s1 s2, read_one c (q_contract q') (q_cutoff q') s1 k = (s2, OItem v)) rs l.
Proof. exact db_get_order. Qed.
Print Assumptions C24_order.
(** Of the entries found, the newest that are to be given, for any reader whose
    answers depend on the message only; unless Get panics. *)
Theorem C24_found_partial : forall (S : Type) (rd : S -> N -> S * outcome) I val, steady rd I val ->
  forall s win cap L, I s -> 0 <= L -> Z.of_nat (length win) <= cap -> StronglySorted N.ge win -> Forall (fun q => q <> 0%N) win ->
  exists s', I s' /\
    (get_entries rd s win cap L = (s', GotItems (firstn (Z.to_nat L) (payloads val win))) \/
     (cap < Z.of_nat (length win) + L /\ L < Z.of_nat (length win) /\ get_entries rd s win cap L = (s', GotPanic))).
Proof. exact @get_steady. Qed.
Print Assumptions C24_found_partial.
(** ... and it does panic: three messages of the last minute are asked for, there
    are ten older ones in five time blocks. *)
Theorem C24_panic_refuted :
  snd (drun dx (Down no_files) (five_blocks ++ [DoGet (T0 + 60) gx (mkQ topA 0 10 0 [])]))
  = snd (drun dx (Down no_files) five_blocks) ++ [OGot (QItems (map pay [10; 9; 8; 7; 6; 5; 4; 3; 2; 1]%N))] /\
  snd (drun dx (Down no_files) (five_blocks ++ [DoGet (T0 + 3600 * 1000000000) gx (mkQ topA 0 3 (1700000000 + 3540) [])]))
  = snd (drun dx (Down no_files) five_blocks) ++ [OGot QPanic].
Proof. exact get_panics. Qed.
Print Assumptions C24_panic_refuted.

(** C25: a rejected put leaves the database as it was, ... *)
Theorem C25_put : forall c s now e,
  (d_closed s = true \/ u_topic e = [] \/ (maxTopicLength < N.of_nat (length (u_topic e)))%N \/ u_payload e = [] \/
   (maxValueLength < N.of_nat (length (u_payload e)))%N) ->
  exists r, put_entry c s now e = (s, e, DErr r).
Proof. exact put_rejected. Qed.
Print Assumptions C25_put.
(** ... so whatever comes afterwards answers as if it had not been attempted, ... *)
Theorem C25_unseen : forall c s now e ops,
  (u_topic e = [] \/ (maxTopicLength < N.of_nat (length (u_topic e)))%N \/ u_payload e = [] \/
   (maxValueLength < N.of_nat (length (u_payload e)))%N) ->
  exists r, drun c (Up s) (DoPut now e :: ops) = (fst (drun c (Up s) ops), ORes (DErr r) :: snd (drun c (Up s) ops)).
Proof. exact put_rejected_run. Qed.
Print Assumptions C25_unseen.
(** ... also inside a batch. *)
Theorem C25_batch : forall c s b now e,
  (u_topic e = [] \/ (maxTopicLength < N.of_nat (length (u_topic e)))%N \/ u_payload e = [] \/
   (maxValueLength < N.of_nat (length (u_payload e)))%N) ->
  exists r, batch_put_entry c s b now e = (s, b, e, DErr r).
Proof. exact batch_put_rejected. Qed.
Print Assumptions C25_batch.
Example C25_example : exists s, Up s = fst (drun dx (Down no_files) [open_x T0; put_x T0 topA (pay 1)]) /\
  exists r, put_entry dx s T0 (newEntry topA []) = (s, newEntry topA [], DErr r).
Proof.
  exists s_one. split; [vm_compute; reflexivity|]. apply put_rejected. do 3 right. now left.
Qed.
(** It is false for a batch on a closed database: no error, nothing is stored. *)
Theorem C25_closed_refuted : let s := fst (db_close (state_x [open_x T0])) in
  d_closed s = true /\ exists s', db_batch_run dx s T0 None [bput_x topA (pay 1)] false T0 T0 None None = Some s'.
Proof. exact closed_batch. Qed.
Print Assumptions C25_closed_refuted.

(** C26: on an immutable database deletion is refused and changes nothing, ... *)
Theorem C26_delete : forall c s e, d_immut s = true -> delete_entry c s e = (s, DErr XImmutable).
Proof. exact delete_immutable. Qed.
Print Assumptions C26_delete.
Theorem C26_batch : forall c s b now e, d_immut s = true -> batch_delete_entry c s b now e = (s, b, e, DErr XImmutable).
Proof. exact batch_delete_immutable. Qed.
Print Assumptions C26_batch.
(** ... in every history in which the database is only opened immutable; [ONone]:
    it is not open. *)
Theorem C26_history : forall c f ops,
  Forall (fun o => forall gens now ord enc, o <> DoOpen gens now ord false enc) ops ->
  forall i e, nth_error ops i = Some (DoDelete e) ->
    nth_error (snd (drun c (Down f) ops)) i = Some (ORes (DErr XImmutable)) \/
    nth_error (snd (drun c (Down f) ops)) i = Some ONone.
Proof. intros c f ops. exact (immutable_run c ops (Down f) I). Qed.
Print Assumptions C26_history.
Example C26_example : run_x [DoOpen [ex_gen] T0 (fun m => m) true false; put_x T0 topA (pay 1); del_x (id_x T0 1) topA; get_x T0 topA]
  = [OOpened true; ORes DOk; ORes (DErr XImmutable); got [1%N]].
Proof. vm_compute. reflexivity. Qed.

(** C27 is false: a message that has been synced stays, ... *)
Theorem C27_synced_refuted : run_x h_deleted =
  [OOpened true; ORes DOk; ORes DOk; ODone; ODone; ORes DOk; ORes DOk; got [1%N]; ORes DOk; OOpened true; got [1%N]].
Proof. exact deleted_stays. Qed.
Print Assumptions C27_synced_refuted.
(** ... and deleting one that has not makes the other messages of the topic
    unreadable. *)
Theorem C27_others_refuted : run_x h_deleted2 = [OOpened true; ORes DOk; ORes DOk; ORes DOk; OGot (QErr [pay 2] XIO)].
Proof. exact deleted_breaks. Qed.
Print Assumptions C27_others_refuted.

(** C28 is false: 0 after a put that is not synced, and 2^64-1 after the deletion
    of an identifier that does not exist. *)
Theorem C28_refuted :
  run_x [open_x T0; put_x T0 topA (pay 1); DoCount] = [OOpened true; ORes DOk; OCount 0] /\
  run_x [open_x T0; put_x T0 topA (pay 1); del_x (id_x T0 7) topA; DoCount] = [OOpened true; ORes DOk; ORes DOk; OCount (2 ^ 64 - 1)].
Proof. exact count_wrong. Qed.
Print Assumptions C28_refuted.

(** C29: in every history without crash and panic, over any number of closes and
    opens, the numbers handed out only go up. *)
Theorem C29_history_partial : forall c ops, (asks_all ops < 2 ^ 64)%N ->
  Forall2 survives ops (snd (drun c (Down no_files) ops)) -> StronglySorted N.lt (handed_all c (Down no_files) ops).
Proof. exact handed_increasing. Qed.
Print Assumptions C29_history_partial.
Example C29_example : handed_all dx (Down no_files) h_restart = [1; 2; 3; 4]%N /\ Forall2 survives h_restart (run_x h_restart).
Proof. split; [vm_compute; reflexivity|]. rewrite restart_works. repeat constructor; discriminate. Qed.
(** Writers at the same time get different numbers. *)
Theorem C29_writers : forall n schedule, (n + N.of_nat (length schedule) < 2 ^ 64)%N -> NoDup (map snd (turns n schedule)).
Proof. intros n sch H. exact (proj1 (turns_above sch n H)). Qed.
Print Assumptions C29_writers.
(** False after a crash: number 2 is handed out again while the message that has
    it is there; the new message is lost at the next sync. *)
Theorem C29_refuted : handed_all dx (Down no_files) h_again = [1; 2; 3; 2]%N /\ run_x h_again =
  [OOpened true; ORes DOk; ODone; ODone; ORes DOk; ORes DOk; ORes DOk; ODone; ODone; ODone; OOpened true;
   got [2; 1]%N; ORes DOk; got [7; 9]%N; ODone; ODone; ORes DOk; got [9]%N; got [2; 1]%N].
Proof. exact (conj numbers_again again_loses). Qed.
Print Assumptions C29_refuted.

(** C30 is false: log written, crash before the first sync, nothing is there. *)
Theorem C30_refuted : run_x h_crash =
  [OOpened true; ORes DOk; ORes DOk; ODone; ODone; ODone; OOpened true; got []; OId (id_x (T0 + 20) 1)].
Proof. exact crash_loses. Qed.
Print Assumptions C30_refuted.

(** C31 in one history. *)
Example C31_example : run_x h_restart =
  [OOpened true; ORes DOk; ORes DOk; ORes DOk; ORes DOk; OOpened true; got [2; 1]%N; got [9]%N; OId (id_x (T0 + 20) 4)].
Proof. exact restart_works. Qed.

(** C32 is false: the topic synced first loses its messages at its second sync. *)
Theorem C32_first_refuted : run_x h_first =
  [OOpened true; ORes DOk; ORes DOk; ODone; ODone; ORes DOk; got [2; 1]%N; ORes DOk; got [3; 2; 1]%N; ODone; ODone; ORes DOk; got [3]%N].
Proof. exact first_topic_loses. Qed.
Print Assumptions C32_first_refuted.

(** C33 is false: Batch does not return the error of its function, it panics. *)
Theorem C33_refuted :
  run_x [open_x T0; DoBatch T0 None [bput_x topA (pay 1)] true T0 T0 None None] = [OOpened true; ORes DPanic].
Proof. exact failed_batch. Qed.
Print Assumptions C33_refuted.
Example C33_example :
  run_x [open_x T0; put_x T0 topA (pay 1); DoBatch (T0 + 5) None [bput_x topA (pay 2); bput_x topB (pay 3)] false (T0 + 6) (T0 + 7) None None;
         get_x (T0 + 8) topA; get_x (T0 + 8) topB]
  = [OOpened true; ORes DOk; ORes DOk; got [2; 1]%N; got [3]%N].
Proof. exact good_batch. Qed.

(** C54 is false: payloads of which snappy makes less than four bytes. *)
Theorem C54_short_refuted : forall c s now e, d_enc s = 1%N -> d_closed s = false -> check_put e = None ->
  (length (c_snap c (u_payload e)) < 4)%nat -> put_entry c s now e = (s, e, DPanic).
Proof. exact put_short_panics. Qed.
Print Assumptions C54_short_refuted.
(** Encryption is on in every database that has been opened, whatever the options. *)
Theorem C54_encrypted : forall c gens now ord immut enc f n s, info_good n (f_info f) ->
  db_open c gens now ord immut enc f = Opened s -> d_enc s = 1%N.
Proof. exact open_encrypts. Qed.
Print Assumptions C54_encrypted.
Example C54_short_example : run_x [open_x T0; put_x T0 topA [65%N]] = [OOpened true; ORes DPanic].
Proof. exact short_payload. Qed.
(** ... and topics with some 13100 parts (26200 bytes). *)
Theorem C54_deep_refuted : forall c s now topic payload,
  let ft := add_contract MasterContract (parse_topic MasterContract topic) in
  (65501 <= N.of_nat (length (topic_marshal (t_parts ft) (t_depth ft))) < 65536)%N ->
  getOffset (d_trie s) (get_hash MasterContract ft) = None ->
  d_closed s = false -> check_put (newEntry topic payload) = None -> (4 <= length (c_snap c payload))%nat ->
  (d_seq s + 1 < 2 ^ 64)%N -> (forall q v, exists m, mem_put (c_mem c) (d_mem s) q v = (m, MOk)) ->
  exists s' e', put_entry c s now (newEntry topic payload) = (s', e', DPanic).
Proof. exact put_deep_panics. Qed.
Print Assumptions C54_deep_refuted.

(** C55 is false: every deletion in a batch panics. *)
Theorem C55_refuted : forall c s b now id topic, d_enc s = 1%N -> d_immut s = false -> id <> [] -> topic <> [] ->
  (N.of_nat (length topic) <= maxTopicLength)%N -> (length (c_snap c []) < 4)%nat ->
  exists s' b' e', batch_delete_entry c s b now (mkUE (Some id) topic [] 0 0 false None 0) = (s', b', e', DPanic).
Proof. exact batch_delete_panics. Qed.
Print Assumptions C55_refuted.
Example C55_example : run_x [open_x T0; put_x T0 topA (pay 1);
    DoBatch T0 None [BDelete T0 (mkUE (Some (id_x T0 1)) topA [] 0 0 false None 0)] false T0 T0 None None] = [OOpened true; ORes DOk; ORes DPanic].
Proof. exact batch_delete. Qed.

(** C56 is false: a Query used twice gives every message twice. *)
Theorem C56_refuted :
  let '(s1, q1, r1) := db_get dx s_one T0 gx (newQuery topA) in
  let '(s2, q2, r2) := db_get dx s1 T0 gx q1 in
  r1 = QItems [pay 1] /\ r2 = QItems [pay 1; pay 1].
Proof. exact query_twice. Qed.
Print Assumptions C56_refuted.

(** C57 is false: an Entry used again goes to the topic it was first used for. *)
Theorem C57_refuted :
  let '(s1, e1, r1) := put_entry dx (state_x [open_x T0]) T0 (newEntry topA (pay 1)) in
  let '(s2, e2, r2) := put_entry dx s1 T0 (mkUE (u_id e1) topB (pay 2) (u_expires e1) (u_contract e1) (u_encrypt e1) (u_hash e1) (u_tsize e1)) in
  r1 = DOk /\ r2 = DOk /\
  snd (db_get dx s2 T0 gx (newQuery topA)) = QItems [pay 2; pay 1] /\
  snd (db_get dx s2 T0 gx (newQuery topB)) = QItems [].
Proof. exact entry_twice. Qed.
Print Assumptions C57_refuted.

(** C58 is false: one identifier, two puts, the last value twice. *)
Theorem C58_refuted :
  run_x ([open_x T0; DoNewID T0; put_id (id_x T0 1) topA (pay 1); put_id (id_x T0 1) topA (pay 2); get_x T0 topA])
  = [OOpened true; OId (id_x T0 1); ORes DOk; ORes DOk; got [2; 2]%N].
Proof. exact same_id. Qed.
Print Assumptions C58_refuted.

(** C59 is false: Sync answers nil though nothing is written, now and later; and
    the count is off. *)
Theorem C59_refuted : run_x h_stuck =
  [OOpened true; ORes DOk; ORes DOk; ODone; ODone; ODone; OOpened true; ORes DOk; ODone; ODone; ORes DOk;
   OCount (2 ^ 64 - 2); ORes DOk; ODone; ODone; ORes DOk; OCount (2 ^ 64 - 2); got [4; 3]%N].
Proof. exact stuck. Qed.
Print Assumptions C59_refuted.

(** C60 is false: a put after a batch in the same second cannot be read. *)
Theorem C60_refuted :
  run_x [open_x T0; DoBatch (T0 + 5) None [bput_x topA (pay 2)] false (T0 + 6) (T0 + 7) None None;
         put_x (T0 + 8) topA (pay 4); get_x (T0 + 8) topA]
  = [OOpened true; ORes DOk; ORes DOk; OGot (QErr [] XIO)].
Proof. exact put_after_batch. Qed.
Print Assumptions C60_refuted.
