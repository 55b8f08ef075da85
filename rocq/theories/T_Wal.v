(** Property theorems C07, C08, C51. *)
From Verif Require Import M_Bytes M_File M_Wal S_Wal P_Wal.
Open Scope N_scope.

(** C07, full statement: also for lists with empty records.  That is false:
    the writer skips an empty record, and the reader never returns it. *)
Theorem C07_refuted : exists id rs, In [] rs /\
  replay (write_records [] id rs) = [(id, ([[1]; [2]], EndOk))] /\ rs = [[1]; []; [2]].
Proof. exact (ex_intro _ 7%Z (ex_intro _ [[1]; []; [2]] (conj (or_intror (or_introl eq_refl)) (conj eq_refl eq_refl)))). Qed.
Print Assumptions C07_refuted.

(** With non-empty records: any number of logs of new names, written after any
    content of the directory, are read back in order, record by record. *)
Theorem C07_framing_partial : forall ls d,
  Forall (fun l => log_ok (fst l) (snd l)) ls -> NoDup (map fst ls) ->
  (forall id, In id (map fst ls) -> ~ In id (all_ids d)) ->
  replay (fold_left (fun d l => write_records d (fst l) (snd l)) ls d) =
    replay d ++ map (fun l => (fst l, (snd l, EndOk))) ls.
Proof. exact write_all. Qed.
Print Assumptions C07_framing_partial.

Example C07_example : log_ok 7 [[1; 2]; [3]] /\ log_ok 9 [[4]] /\
  replay (write_records (write_records [] 7 [[1; 2]; [3]]) 9 [[4]]) =
    [(7%Z, ([[1; 2]; [3]], EndOk)); (9%Z, ([[4]], EndOk))].
Proof. repeat split; try discriminate; repeat constructor; discriminate. Qed.

(** C08: whatever the moment the process dies in, the next open replays what
    it would have replayed before the write, or the completed write. *)
Theorem C08_all_or_nothing : forall d w id d', crashed d (log_ops w id) d' ->
  replay d' = replay d \/ replay d' = replay (writeLog d w id).
Proof. exact crash_replay. Qed.
Print Assumptions C08_all_or_nothing.

(** The log files themselves: unchanged, or the write is complete. *)
Theorem C08_files : forall d w id d', crashed d (log_ops w id) d' ->
  filter is_log d' = filter is_log d \/ d' = writeLog d w id.
Proof. exact crash_log. Qed.
Print Assumptions C08_files.

Example C08_example : let w := fold_left lw_append [[1; 2]; [3]] newWriter in
  crashed [] (log_ops w 7) [(FTmp 7, [1; 0; 7])] /\ replay [(FTmp 7, [1; 0; 7])] = [] /\
  replay (writeLog [] w 7) = [(7%Z, ([[1; 2]; [3]], EndOk))].
Proof.
  split; [|split; reflexivity]. apply cr_step.
  change [(FTmp 7, [1; 0; 7])] with
    (apply_op (apply_op [] (OCreate (FTmp 7))) (OWriteAt (FTmp 7) 0 (firstn 3 (li_marshal (mkLI 1 7 2 11))))).
  exact (cr_part _ _ _ _ 3 _).
Qed.

(** C51, full statement: a log file that lost its end on disk contributes no
    record that was not appended.  False: the missing bytes are read as zeros,
    so the record the cut falls into comes back changed. *)
Theorem C51_refuted : exists id rs k r, log_ok id rs /\
  replay [(FLog id, firstn k (logfile id rs))] = [(id, ([[1; 2]; r], EndErr))] /\
  rs = [[1; 2]; [3; 4]; [5]] /\ r = [3; 0].
Proof.
  exact (ex_intro _ 7%Z (ex_intro _ [[1; 2]; [3; 4]; [5]] (ex_intro _ 29%nat (ex_intro _ [3; 0]
    (conj cut_ex_ok (conj eq_refl (conj eq_refl eq_refl))))))).
Qed.
Print Assumptions C51_refuted.

(** What holds: records that lie before the cut come back unchanged, and a log
    cut within the header gives none. *)
Theorem C51_prefix_partial : forall id rs1 rs2 k, log_ok id (rs1 ++ rs2) ->
  (logHeaderSize + N.to_nat (records_size rs1) <= k)%nat ->
  exists t e, replay [(FLog id, firstn k (logfile id (rs1 ++ rs2)))] = [(id, (rs1 ++ t, e))].
Proof. exact cut_log. Qed.
Print Assumptions C51_prefix_partial.

Theorem C51_header_partial : forall id rs k, (k < logHeaderSize)%nat ->
  replay [(FLog id, firstn k (logfile id rs))] = [(id, ([], EndOk))].
Proof. exact cut_header_replay. Qed.
Print Assumptions C51_header_partial.
