(** C118: what a batch has written outlives the process. *)
From Verif Require Import M_Bytes M_Bloom M_Wal S_Wal M_MemDB M_Window M_DB S_MemDB S_DB S_Size S_Abort S_Durable P_MemEx P_Abort P_DBEx P_Durable P_DurableEx.
Open Scope Z_scope.

(** A batch on any reachable store, with any puts and writes: the log directory
    has what it had before, then one log for every Write since which something
    was put, with exactly those puts in their order. *)
Theorem C118_log : forall c gens now s h s1 t pick l h2 s2,
  cfg_ok c gens -> mem_open c gens [] now = Some s -> mrun c s h s1 -> Forall (fun x => op_ok (fst x)) h ->
  fresh_times s1 (t :: bact_times l) -> mrun c (batch_new s1 t pick) h2 s2 -> map fst h2 = batch_ops t l ->
  Forall (fun x => op_ok (fst x)) h2 -> Forall (fun x => log_ok (fst x) [log_bytes (snd x)]) (batch_logs t [] l) ->
  replay (m_wal s2) = replay (m_wal s1) ++ map whole (batch_logs t [] l).
Proof. exact durable. Qed.
Print Assumptions C118_log.

(** When the process dies then, the store can be opened again, and Get answers
    what the logs say, those of the batch among them.  Missing: logs that C35
    excludes. *)
Theorem C118_crash_partial : forall c gens now s h s1 t pick l h2 s2 gens2 now2 l0,
  cfg_ok c gens -> mem_open c gens [] now = Some s -> mrun c s h s1 -> Forall (fun x => op_ok (fst x)) h ->
  fresh_times s1 (t :: bact_times l) -> mrun c (batch_new s1 t pick) h2 s2 -> map fst h2 = batch_ops t l ->
  Forall (fun x => op_ok (fst x)) h2 -> Forall (fun x => log_ok (fst x) [log_bytes (snd x)]) (batch_logs t [] l) ->
  cfg_ok c gens2 -> replay (m_wal s1) = map whole l0 -> logs_ok c (l0 ++ batch_logs t [] l) ->
  (forall a, In a (l0 ++ batch_logs t [] l) -> trunc (fst a) (c_logint c) <= trunc now2 (c_dur c)) ->
  exists s', mem_open c gens2 (m_wal s2) now2 = Some s' /\
    forall k, (k < 2 ^ 64)%N -> snd (mem_get c s' k) =
      match final k (flat (l0 ++ batch_logs t [] l)) None with Some (_, v) => GOk v | None => GNotExist end.
Proof. exact crash. Qed.
Print Assumptions C118_crash_partial.

(** The blocks of a committed batch are among those that Sync asks for, once
    the current block is a later one and until they are freed. *)
Theorem C118_synced : forall c s g h s' u,
  mrun c (batch_commit s g) h s' -> In u g -> Forall (fun x => spares u (fst x)) h -> 0 < u < m_cur s' -> In u (timeRefs s').
Proof. exact to_sync. Qed.
Print Assumptions C118_synced.

(** A store with a message, and a batch of two blocks. *)
Example C118_example : fresh_times du_s1 (15 :: bact_times bw) /\ batch_logs 15 [] bw = du_l1 /\
  Forall (fun x => log_ok (fst x) [log_bytes (snd x)]) du_l1 /\ replay (m_wal du_s1) = map whole du_l0 /\ logs_ok ex_cfg (du_l0 ++ du_l1) /\
  snd (mem_get ex_cfg (ex_open (m_wal du_s2) 50) 1) = GOk vA /\ snd (mem_get ex_cfg (ex_open (m_wal du_s2) 50) 7) = GOk vB.
Proof.
  split; [exact du_fresh|]. split; [reflexivity|]. split; [exact du_small|]. split; [vm_compute; reflexivity|]. split; [exact du_logs_ok|].
  split; vm_compute; reflexivity.
Qed.
Example C118_sync_example : timeRefs (snd (exec ex_cfg (batch_commit du_s2 (batch_times 15 bw)) [OPut 9 vA; OTick 40 None])) = [10; 15; 25].
Proof. vm_compute. reflexivity. Qed.

(** For a database it is false: one that was never synced does not look at the
    logs when it is opened, and a committed batch is gone. *)
Theorem C118_refuted : run_x h_batch_crash =
  [OOpened true; ORes DOk; ODone; OOpened true; got []; OId (id_x (T0 + 20) 1)].
Proof. exact batch_crash_loses. Qed.
Print Assumptions C118_refuted.
