(** The lock file: C36. *)
From Verif Require Import M_Lock S_Lock P_Lock.

(** C36 is false: a process that opened the lock file before another one removed
    it locks a file without a name; a third one makes and locks a new file. *)
Theorem C36_refuted : ~ exclusive (lrun 3 race).
Proof. exact race_bad. Qed.
Print Assumptions C36_refuted.
(** Of two such processes only one can unlock: the other finds no name to remove
    and returns without closing the file. *)
Theorem C36_unlock_refuted : lk_phase (lrun 3 stuck) 1 = PStuck 0.
Proof. exact stuck_bad. Qed.
Print Assumptions C36_unlock_refuted.

(** It holds in every interleaving as long as nobody closes the database, also
    if processes die; *)
Theorem C36_open_partial : forall n ops, Forall (fun o => op_proc o < n) ops -> Forall (fun o => removes o = false) ops -> exclusive (lrun n ops).
Proof. exact no_close. Qed.
Print Assumptions C36_open_partial.
(** and in every order of calls that do not overlap. *)
Theorem C36_calls_partial : forall n cs, Forall (fun o => cop_proc o < n) cs -> exclusive (lrun n (flat_map calls cs)).
Proof. exact whole_calls. Qed.
Print Assumptions C36_calls_partial.

Example C36_example :
  map (lk_phase (lrun 3 (flat_map calls [COpen 0; COpen 1; CClose 0; COpen 1; COpen 2; CDie 1; COpen 2; COpen 0]))) [0; 1; 2] = [PIdle; PIdle; PHeld 1].
Proof. reflexivity. Qed.
