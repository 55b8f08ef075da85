(** Property C116: the counters of a database. *)
From Verif Require Import M_Bytes M_MemDB M_DB S_MemDB S_DB S_Session S_Count S_Only M_Varz S_Varz P_MemEx P_DBEx P_SessionEx P_OnlyEx P_Varz.
Open Scope Z_scope.

(** From any state of an open database, until it is opened again: Puts are the
    accepted calls of Put, Leases the identifiers handed out, Gets and OutMsgs
    the payloads given by Gets without an error. *)
Theorem C116_calls_partial : forall c ops w v, Forall not_open ops -> let '(w', v', outs) := vrun c (w, v) ops in
  (v_puts v' = v_puts v + seen accepted ops outs)%N /\ (v_leases v' = v_leases v + seen leased ops outs)%N /\
  (v_out v' = v_out v + seen shown ops outs)%N /\ (v_gets v' = v_gets v + seen shown ops outs)%N.
Proof. exact run_seen. Qed.
Print Assumptions C116_calls_partial.

(** In a session on a new database InMsgs and Syncs are the messages Sync has
    written, and Count. *)
Theorem C116_synced_partial : forall c gens t ord immut enc ops, setting_ok c gens -> c_dur (c_mem c) <= t -> session_ok c t [] ops -> (N.of_nat (length ops) <= 130000)%N ->
  exists s v outs, vrun c (Down no_files, varz_new) (DoOpen gens t ord immut enc :: map as_dop ops) = (Up s, v, outs) /\
    u64 (v_in v) = N.of_nat (length (written_of (book_of (c_dur (c_mem c)) t ops))) /\ d_count s = u64 (v_in v) /\
    v_syncs v = v_in v /\ v_recovers v = 0%N /\ v_dels v = 0%N.
Proof. exact session_counters. Qed.
Print Assumptions C116_synced_partial.

(** Whatever happens to a Sync: what InMsgs rises by for a block, Count has risen
    by (what is taken from Count later is another matter). *)
Theorem C116_block_partial : forall now ord keys st t st', (d_count (ss_db st) < 2 ^ 64)%N ->
  sync_block now ord keys st t = SyOk st' \/ sync_block now ord keys st t = SyErr st' ->
  d_count (ss_db st') = u64 (d_count (ss_db st) + block_count now ord st t) \/ block_count now ord st t = 0%N.
Proof. exact block_counted_any. Qed.
Print Assumptions C116_block_partial.

(** Messages put by a batch are not counted; they can be read. *)
Theorem C116_batch_refuted : exists c gens ops, setting_ok c gens /\
  let '(w, v, outs) := vrun c (Down no_files, varz_new) (DoOpen gens T0 (fun m => m) false false :: ops) in
  outs = [OOpened true; ORes DOk; got [2]%N] /\ v_puts v = 0%N.
Proof.
  exists dx, [ex_gen], [DoBatch (T0 + 5) None [bput_x topA (pay 2)] false (T0 + 6) (T0 + 7) None None; get_x (T0 + 8) topA].
  split; [exact dx_ok|]. vm_compute. auto.
Qed.
Print Assumptions C116_batch_refuted.

(** Payloads given together with an error are not counted. *)
Theorem C116_error_refuted : exists c gens ops, setting_ok c gens /\
  let '(w, v, outs) := vrun c (Down no_files, varz_new) (DoOpen gens T0 (fun m => m) false false :: ops) in
  (v_out v < seen shown_all (DoOpen gens T0 (fun m => m) false false :: ops) outs)%N.
Proof.
  exists dx, [ex_gen], (only_ops1 ++ DoDelete only_del :: only_ops2). split; [exact dx_ok|]. vm_compute. reflexivity.
Qed.
Print Assumptions C116_error_refuted.

(** A deletion of an identifier nobody has is counted. *)
Theorem C116_deleted_refuted : exists c gens id, setting_ok c gens /\
  let '(w, v, outs) := vrun c (Down no_files, varz_new) [DoOpen gens T0 (fun m => m) false false; del_x id topA; DoCount] in
  outs = [OOpened true; ORes DOk; OCount (2 ^ 64 - 1)] /\ v_dels v = 1%N.
Proof. exists dx, [ex_gen], (id_x T0 7). split; [exact dx_ok|]. vm_compute. auto. Qed.
Print Assumptions C116_deleted_refuted.

(** Syncs that are undone leave no trace in the counters, neither in Aborts;
    Count is then no longer InMsgs less Dels. *)
Theorem C116_aborted_refuted : exists c gens ops, setting_ok c gens /\
  let '(w, v, outs) := vrun c (Down no_files, varz_new) (DoOpen gens T0 (fun m => m) false false :: ops) in
  nth 16 outs ONone = OCount (2 ^ 64 - 2) /\ v_aborts v = 0%N /\ v_in v = 0%N /\ v_dels v = 0%N.
Proof. exists dx, [ex_gen], (tl h_stuck). split; [exact dx_ok|]. vm_compute. auto. Qed.
Print Assumptions C116_aborted_refuted.

(** The counters of a restart: three messages were synced in recovery, two Gets
    gave them, one identifier. *)
Example C116_case : let '(w, v, outs) := vrun dx (Down no_files, varz_new) h_restart in v = mkVz 3 0 1 3 3 0 0 3 3.
Proof. vm_compute. reflexivity. Qed.
(** A session of which Sync has written three, then six messages. *)
Example C116_session_case : setting_ok dx [ex_gen] /\ session_ok dx T0 [] sess /\
  (let '(_, v, _) := vrun dx (Down no_files, varz_new) (open_x T0 :: map as_dop (firstn 8 sess)) in v_in v = 3%N) /\
  (let '(_, v, _) := vrun dx (Down no_files, varz_new) (open_x T0 :: map as_dop sess) in v_in v = 6%N).
Proof. split; [exact dx_ok|]. split; [exact sess_ok|]. split; vm_compute; reflexivity. Qed.
