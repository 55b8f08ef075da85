(** Queries for a span of time over sessions with restarts: C66. *)
From Verif Require Import M_Bytes M_Bloom M_MemDB M_Window M_DB S_MemDB S_DB S_Session S_Restart S_Since S_SinceR P_SinceR P_MemEx P_DBEx P_SessionEx P_SinceEx P_SinceREx.
Open Scope Z_scope.

(** C66 over sessions with restarts: the age of a message is counted from when it
    was put, whatever was written to which file since then.  Closes and Opens
    succeed, and every Get gives exactly the messages that match, have not expired
    and are not from an earlier second than the span, the newest first. [first] and
    the conditions on restarts are those of C63. *)
Theorem C66_restart_partial : forall c gens t ord immut enc ops, setting_ok c gens -> 0 < c_logint (c_mem c) -> 0 <= t < 2 ^ 32 * 1000000000 -> c_dur (c_mem c) <= t ->
  rspan_ok c t [] ops -> (N.of_nat (length ops) <= 130000)%N ->
  exists first outs, snd (drun c (Down no_files) (DoOpen gens t ord immut enc :: flat_map (as_ldops c) ops)) = OOpened true :: outs /\ rspanned c first [] ops outs.
Proof. exact since_restarts. Qed.
Print Assumptions C66_restart_partial.

(** Three restarts; messages of the seconds 0, 1 and 3.  At 3 s the last 2 s give
    those of 1 and 3, though the files hold all three. *)
Example C66_restart_example : setting_ok dl [ex_gen] /\ 0 < c_logint (c_mem dl) /\ c_dur (c_mem dl) <= T0 /\ rspan_ok dl T0 [] lrsess /\
  snd (drun dl (Down no_files) (DoOpen [ex_gen] T0 (fun m => m) false false :: flat_map (as_ldops dl) lrsess)) = lrsess_outs.
Proof. split; [exact dl_ok|]. split; [reflexivity|]. split; [vm_compute; congruence|]. split; [exact lrsess_ok|exact lrsess_run]. Qed.
