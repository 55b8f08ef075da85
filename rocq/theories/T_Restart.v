(** Properties of sessions with restarts: C63. *)
From Verif Require Import M_Bytes M_Bloom M_MemDB M_Window M_DB S_MemDB S_DB S_Session S_Restart P_Restart6 P_MemEx P_DBEx P_SessionEx P_RestartEx.
Open Scope Z_scope.

(** C63: as C62, with any number of Closes and Opens in between: they succeed, and
    change nothing in what is read afterwards, whether the messages had been
    synced or not. All topics but one, as in C62; the clock moves on to another
    time slot before each Open, and no topic has more than 335 messages then. *)
Theorem C63_restart_partial : forall c gens t ord immut enc ops, setting_ok c gens -> 0 < c_logint (c_mem c) -> 0 <= t < 2 ^ 32 * 1000000000 -> c_dur (c_mem c) <= t ->
  restart_ok c t [] ops -> (N.of_nat (length ops) <= 130000)%N ->
  exists first outs, snd (drun c (Down no_files) (DoOpen gens t ord immut enc :: flat_map as_dops ops)) = OOpened true :: outs /\ ranswered first [] ops outs.
Proof. exact restarts. Qed.
Print Assumptions C63_restart_partial.

(** Four restarts: with everything, something or nothing in the log. *)
Example C63_example : setting_ok dx [ex_gen] /\ restart_ok dx T0 [] rsess /\
  snd (drun dx (Down no_files) (DoOpen [ex_gen] T0 (fun m => m) false false :: flat_map as_dops rsess)) = rsess_outs.
Proof. split; [exact dx_ok|]. split; [exact rsess_ok|exact rsess_run]. Qed.

(** Why another time slot: otherwise Puts fail after the Open, until the next
    tick of the log. *)
Theorem C63_slot_refuted : exists c gens t topic p1 p2, setting_ok c gens /\
  snd (drun c (Down no_files) [DoOpen gens t (fun m => m) false false; DoPut t (newEntry topic p1); DoClose;
                               DoOpen gens (t + 1) (fun m => m) false false; DoPut (t + 2) (newEntry topic p2)]) =
  [OOpened true; ORes DOk; ORes DOk; OOpened true; ORes (DErr XForbidden)].
Proof. exact slot_lost. Qed.
Print Assumptions C63_slot_refuted.
