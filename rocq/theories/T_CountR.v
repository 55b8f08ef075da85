(** What is written and what Count answers over restarts: C28, C59. *)
From Verif Require Import M_Bytes M_Bloom M_MemDB M_Window M_DB S_MemDB S_DB S_Session S_Restart S_Count S_CountR P_CountR P_MemEx P_DBEx P_SessionEx P_RestartEx.
From Coq Require Import Lia.
Open Scope Z_scope.

(** C28, over any number of restarts: Count answers the number of messages
    written by Sync or by Open, which writes all that the log has left. *)
Theorem C28_restart_partial : forall c gens t ord immut enc ops, setting_ok c gens -> 0 < c_logint (c_mem c) -> 0 <= t < 2 ^ 32 * 1000000000 -> c_dur (c_mem c) <= t ->
  restart_ok c t [] ops -> (N.of_nat (length ops) <= 130000)%N ->
  exists outs, snd (drun c (Down no_files) (DoOpen gens t ord immut enc :: flat_map as_dops ops ++ [DoCount])) =
    outs ++ [OCount (N.of_nat (length (written_of (rbook_of (c_dur (c_mem c)) t ops))))].
Proof. exact count_restarts. Qed.
Print Assumptions C28_restart_partial.

(** C59, over restarts: the messages written can be read back from the files
    alone, each under a number of its own. *)
Theorem C59_restart_partial : forall c gens t ord immut enc ops, setting_ok c gens -> 0 < c_logint (c_mem c) -> 0 <= t < 2 ^ 32 * 1000000000 -> c_dur (c_mem c) <= t ->
  restart_ok c t [] ops -> (N.of_nat (length ops) <= 130000)%N ->
  exists s, fst (drun c (Down no_files) (DoOpen gens t ord immut enc :: flat_map as_dops ops)) = Up s /\
    exists qs, NoDup qs /\ Forall2 (on_file c (on_disk s)) qs (written_of (rbook_of (c_dur (c_mem c)) t ops)).
Proof. exact files_restarts. Qed.
Print Assumptions C59_restart_partial.

(** After the first restart one message is written; after the second all three;
    then Sync adds one, and two more wait in the log for the third restart. *)
Example C28_restart_example : setting_ok dx [ex_gen] /\ 0 < c_logint (c_mem dx) /\ c_dur (c_mem dx) <= T0 /\ restart_ok dx T0 [] rsess /\
  map (fun n => length (written_of (rbook_of (c_dur (c_mem dx)) T0 (firstn n rsess)))) [1; 2; 5; 6; 8; 12; 14; 15; 20]%nat = [0; 1; 1; 3; 3; 4; 4; 6; 6]%nat.
Proof. split; [exact dx_ok|]. split; [reflexivity|]. split; [vm_compute; congruence|]. split; [exact rsess_ok|]. vm_compute. reflexivity. Qed.
