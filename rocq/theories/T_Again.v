(** Entries, queries and batches once more: C33, C56, C57. *)
From Verif Require Import M_Bytes M_Bloom M_MemDB M_Window M_DB S_Trie S_MemDB S_DB S_Session S_Again P_Again P_MemEx P_DBEx P_SessionEx P_AgainEx.
From Coq Require Import Lia.
Open Scope Z_scope.

(** C33, for a function that does not call Write: when it fails the files are
    those of before, so the program goes on from the next Open as it would
    after a crash in place of the batch. *)
Theorem C33_unwritten_partial : forall c s now pick ops n1 n2 p1 p2 more, unwritten ops ->
  drun c (Up s) (DoBatch now pick ops true n1 n2 p1 p2 :: more) =
  (fst (drun c (Up s) (DoCrash :: more)), ORes DPanic :: tl (snd (drun c (Up s) (DoCrash :: more)))).
Proof. exact batch_crash. Qed.
Print Assumptions C33_unwritten_partial.

(** And a program that goes on after the panic: nothing of the batch is in the
    files, the tree of topics, the time window or the count. *)
Theorem C33_left_partial : forall c s now pick ops, unwritten ops -> let (s0, b) := db_batch s now pick in
  on_disk (batch_left c s0 b ops) = on_disk s /\ d_trie (batch_left c s0 b ops) = d_trie s /\ d_tw (batch_left c s0 b ops) = d_tw s /\
  d_count (batch_left c s0 b ops) = d_count s.
Proof. exact left_disk. Qed.
Print Assumptions C33_left_partial.
Example C33_unwritten_example : unwritten [bput_x topA (pay 2)] /\ run_x (h_batch []) =
  [OOpened true; ORes DOk; ODone; ODone; ORes DOk; ORes DPanic; OOpened true; got []; got [1]%N].
Proof. split; [repeat constructor|exact batch_unwritten]. Qed.

(** C33 is false of a function that calls Write and then fails: its message is
    there after the next Open. *)
Theorem C33_written_refuted : run_x (h_batch [BWrite (T0 + 16) None]) =
  [OOpened true; ORes DOk; ODone; ODone; ORes DOk; ORes DPanic; OOpened true; got [2]%N; got [1]%N].
Proof. exact batch_written. Qed.
Print Assumptions C33_written_refuted.

(** C56, with a new Query for each Get: the same Get twice gives the same twice.
    As in C62 the topic that owns block 0 of the window file is left out. *)
Theorem C56_fresh_partial : forall c gens t ord immut enc ops now g1 g2 k names l1 l2, setting_ok c gens -> 0 <= t ->
  session_ok c t [] (ops ++ [SGet now g1 k names l1; SGet now g2 k names l2]) -> (N.of_nat (length ops) < 129999)%N ->
  exists first outs i1 i2, snd (drun c (Down no_files) (DoOpen gens t ord immut enc :: map as_dop (ops ++ [SGet now g1 k names l1; SGet now g2 k names l2]))) =
      outs ++ [OGot (QItems i1); OGot (QItems i2)] /\
    (Forall (fun o => syncs o = false) ops -> first = None) /\ (spared first k names = false -> i1 = i2).
Proof. exact query_again. Qed.
Print Assumptions C56_fresh_partial.
Example C56_example : session_ok dx T0 [] (firstn 11 sess ++ [sess_get; sess_get]) /\
  snd (drun dx (Down no_files) (open_x T0 :: map as_dop (firstn 11 sess ++ [sess_get; sess_get]))) =
  firstn 12 sess_outs ++ [got [4; 3; 2; 1]%N; got [4; 3; 2; 1]%N].
Proof. split; [exact get_sess|exact get_sess_run]. Qed.

(** C57, for the topic of the first use: after any session, an entry given back
    by Put and given another payload does what a new entry does. *)
Theorem C57_same_topic_partial : forall c gens t ord immut enc ops now k p payload expires encrypt, setting_ok c gens -> c_dur (c_mem c) <= t ->
  session_ok c t [] (ops ++ [SPut now k p payload expires encrypt]) -> (N.of_nat (length ops) < 130000)%N ->
  exists s s1 e1, fst (drun c (Down no_files) (DoOpen gens t ord immut enc :: map as_dop ops)) = Up s /\
    put_entry c s now (an_entry p payload expires k encrypt) = (s1, e1, DOk) /\
    forall now2 payload2, put_result c s1 now2 (with_payload e1 payload2) = put_result c s1 now2 (an_entry p payload2 expires k encrypt).
Proof. exact entry_again. Qed.
Print Assumptions C57_same_topic_partial.
Example C57_example : session_ok dx T0 [] (firstn 8 sess ++ [sess_put]) /\
  (let '(s1, e1, r1) := put_entry dx (state_x [open_x T0]) T0 (newEntry topA (pay 1)) in
   let '(s2, e2, r2) := put_entry dx s1 T0 (with_payload e1 (pay 2)) in
   r1 = DOk /\ r2 = DOk /\ snd (db_get dx s2 T0 gx (newQuery topA)) = QItems [pay 2; pay 1]).
Proof. split; [exact put_sess|exact entry_twice_same]. Qed.
