(** C74, C75: aborting a batch of the in-memory store; opening it with a log
    that lost its end. *)
From Verif Require Import M_Bytes M_Bloom M_Wal S_Wal P_Wal M_MemDB S_MemDB S_Size S_Abort P_MemGet P_MemEx P_Abort P_Torn.
Open Scope Z_scope.

(** A batch on any reachable store, with any puts and writes, whose last act is
    a write: after Abort every lookup answers as before the batch, and the log
    directory has the same files. *)
Theorem C74_partial : forall c gens now s h s1 t pick l h2 s2,
  cfg_ok c gens -> mem_open c gens [] now = Some s -> mrun c s h s1 -> Forall (fun x => op_ok (fst x)) h ->
  fresh_times s1 (t :: bact_times l) -> mrun c (batch_new s1 t pick) h2 s2 -> map fst h2 = batch_ops t l ->
  Forall (fun x => op_ok (fst x)) h2 -> ends_written true l ->
  let s3 := batch_abort s2 (batch_times t l) in
  (forall u k, mem_lookup s3 u k = mem_lookup s1 u k) /\ (forall n, dget (m_wal s3) n = dget (m_wal s1) n).
Proof. exact abort_run. Qed.
Print Assumptions C74_partial.

(** What was put after the last write stays. *)
Theorem C74_refuted : exists c gens now s h s1 t pick l h2 s2,
  cfg_ok c gens /\ mem_open c gens [] now = Some s /\ mrun c s h s1 /\ Forall (fun x => op_ok (fst x)) h /\
  fresh_times s1 (t :: bact_times l) /\ mrun c (batch_new s1 t pick) h2 s2 /\ map fst h2 = batch_ops t l /\
  Forall (fun x => op_ok (fst x)) h2 /\
  exists u k v, mem_lookup s1 u k = GNotExist /\ mem_lookup (batch_abort s2 (batch_times t l)) u k = GOk v.
Proof. exact abort_leaves. Qed.
Print Assumptions C74_refuted.

Example t_abort : let s1 := snd (ex_run [OPut 7 vB; OTick 20 None; OCommit]) in
  let s2 := snd (exec ex_cfg (batch_new s1 15 None) (batch_ops 15 bw)) in
  fresh_times s1 (15 :: bact_times bw) /\ ends_written true bw /\ batch_times 15 bw = [15; 25] /\
  map fst (m_wal s1) = [FLog 10] /\ map fst (m_wal s2) = [FLog 10; FLog 15; FLog 25] /\ mem_lookup s2 25 2 = GOk vB /\
  map fst (m_wal (batch_abort s2 [15; 25])) = [FLog 10] /\ mem_lookup (batch_abort s2 [15; 25]) 25 2 = GNotExist.
Proof. exact abort_case. Qed.

(** A log cut within its header is passed over: the store opens with what all
    other logs hold, and goes on as C34_get_partial says. *)
Theorem C75_header_partial : forall c gens d1 d2 l1 l2 id f k now,
  cfg_ok c gens -> logs_ok c (l1 ++ l2) -> replay d1 = map whole l1 -> replay d2 = map whole l2 ->
  NoDup (all_ids (d1 ++ (FLog id, firstn k f) :: d2)) -> (k < logHeaderSize)%nat ->
  (forall a, In a (l1 ++ l2) -> trunc (fst a) (c_logint c) <= trunc now (c_dur c)) ->
  exists s, mem_open c gens (d1 ++ (FLog id, firstn k f) :: d2) now = Some s /\
    forall h s', mrun c s h s' ->
    (forall h1 o out h2 g1, h = h1 ++ (o, out) :: h2 -> gacts_all c (recovered c (l1 ++ l2) now) h1 g1 -> allowed c g1 o /\ op_ok o) ->
    exists g, gacts_all c (recovered c (l1 ++ l2) now) h g.
Proof. exact torn_header_run. Qed.
Print Assumptions C75_header_partial.

(** A log of which only the header is left ends the replay: the store opens
    with what the logs before it hold. *)
Theorem C75_stop_partial : forall c gens d1 d2 l1 id rs now,
  cfg_ok c gens -> logs_ok c l1 -> log_ok id rs -> replay d1 = map whole l1 ->
  NoDup (all_ids (d1 ++ (FLog id, firstn logHeaderSize (logfile id rs)) :: d2)) ->
  (forall a, In a l1 -> trunc (fst a) (c_logint c) <= trunc now (c_dur c)) ->
  exists s, mem_open c gens (d1 ++ (FLog id, firstn logHeaderSize (logfile id rs)) :: d2) now = Some s /\
    forall h s', mrun c s h s' ->
    (forall h1 o out h2 g1, h = h1 ++ (o, out) :: h2 -> gacts_all c (recovered c l1 now) h1 g1 -> allowed c g1 o /\ op_ok o) ->
    exists g, gacts_all c (recovered c l1 now) h g.
Proof. exact torn_stop_run. Qed.
Print Assumptions C75_stop_partial.

(** So a damaged log hides the undamaged ones after it. *)
Theorem C75_refuted : exists c gens d1 d2 l1 l2 id rs now s, cfg_ok c gens /\ logs_ok c (l1 ++ l2) /\ log_ok id rs /\
  replay d1 = map whole l1 /\ replay d2 = map whole l2 /\ NoDup (all_ids (d1 ++ (FLog id, firstn logHeaderSize (logfile id rs)) :: d2)) /\
  mem_open c gens (d1 ++ (FLog id, firstn logHeaderSize (logfile id rs)) :: d2) now = Some s /\
  exists k t v, g_slot (recovered c (l1 ++ l2) now) k = Held t v /\ snd (mem_get c s k) = GNotExist.
Proof. exact torn_hides. Qed.
Print Assumptions C75_refuted.

(** A log that lost more than its last value cannot be opened: Open panics. *)
Theorem C75_panic_refuted : exists c gens id es n now, cfg_ok c gens /\ logs_ok c [(id, es)] /\ log_ok id [log_bytes es] /\
  mem_open c gens [(FLog id, logfile id [log_bytes es])] now <> None /\ mem_open c gens [(FLog id, firstn n (logfile id [log_bytes es]))] now = None.
Proof. exact torn_panic. Qed.
Print Assumptions C75_panic_refuted.

(** A log cut within its last value gives back a value that was never put. *)
Theorem C75_value_refuted : exists c gens id es n now s k v w, cfg_ok c gens /\ log_ok id [log_bytes es] /\
  mem_open c gens [(FLog id, firstn n (logfile id [log_bytes es]))] now = Some s /\ In ((false, k), v) es /\
  snd (mem_get c s k) = GOk w /\ ~ In w (map snd es).
Proof. exact torn_value. Qed.
Print Assumptions C75_value_refuted.

(** Two logs around one of seven bytes. *)
Example t_header : let d := [tfile (tl 10 1 vA); (FLog 20, firstn 7 (logfile 20 [[7%N]])); tfile (tl 30 3 vB)] in
  logs_ok ex_cfg ([tl 10 1 vA] ++ [tl 30 3 vB]) /\ replay [tfile (tl 10 1 vA)] = map whole [tl 10 1 vA] /\ replay [tfile (tl 30 3 vB)] = map whole [tl 30 3 vB] /\
  NoDup (all_ids d) /\ snd (mem_get ex_cfg (ex_open d 50) 1) = GOk vA /\ snd (mem_get ex_cfg (ex_open d 50) 3) = GOk vB.
Proof.
  cbv zeta. split; [exact two_logs_ok|]. split; [vm_compute; reflexivity|]. split; [vm_compute; reflexivity|].
  split; [cbn; repeat constructor; cbn; intuition discriminate|]. split; vm_compute; reflexivity.
Qed.
