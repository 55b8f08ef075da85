(* Theorems about Puts at the same time as the loops of the in-memory store. *)

From Coq Require Import List Arith Bool.
Import ListNotations.
From Verif Require Import M_Race S_Race P_Race P_RaceEx.

(* C101, for a Put that wrote its record while its time was still current: in every
   run of the goroutines the record is in memory until an iteration has handed it
   to its caller, and once its time is over and no log of that time is still to be
   written, it is in a log file or has been handed over. *)
Theorem C101_partial : forall s0 es i s, in_time (rrun (rstart s0) es) i s ->
  (In i (r_handed (rrun (rstart s0) es)) \/ in_memory (rrun (rstart s0) es) i s) /\
  (r_cur (rrun (rstart s0) es) <> s -> ~ pending (rrun (rstart s0) es) s ->
   In i (r_handed (rrun (rstart s0) es)) \/ logged (rrun (rstart s0) es) i).
Proof. exact timely_safe. Qed.
Print Assumptions C101_partial.

(* Not for every Put: one that has read the time and then waits may return without
   an error after the last log of its time was written; its record is in no log,
   and no log that is still to be written is for its time. *)
Theorem C101_refuted : exists s0 es i, put_ok (rrun (rstart s0) es) i /\
  (forall s, s <> r_cur (rrun (rstart s0) es) -> ~ pending (rrun (rstart s0) es) s) /\
  ~ logged (rrun (rstart s0) es) i /\ ~ In i (r_handed (rrun (rstart s0) es)).
Proof. exact (ex_intro _ 5 (ex_intro _ late_events (ex_intro _ 0 late_not_logged))). Qed.
Print Assumptions C101_refuted.

(* And a Put may return without an error and its record be nowhere, for ever: it was
   written between the reading of the keys of its block and Free. *)
Theorem C101_lost_refuted : exists s0 es i, put_ok (rrun (rstart s0) es) i /\
  for_ever (fun st => gone st i) (rrun (rstart s0) es).
Proof. exact (ex_intro _ 5 (ex_intro _ lost_events (ex_intro _ 0 lost_for_ever))). Qed.
Print Assumptions C101_lost_refuted.

(* In the second run Put 1 was in time; it was logged, then handed over. *)
Example C101_in_time : in_time (rrun (rstart 5) lost_events) 1 5 /\
  in_time (rrun (rstart 5) (firstn 14 lost_events)) 1 5 /\
  r_wal (rrun (rstart 5) (firstn 14 lost_events)) = [(0, [1])] /\
  r_cur (rrun (rstart 5) (firstn 14 lost_events)) = 6 /\
  ~ pending (rrun (rstart 5) (firstn 14 lost_events)) 5.
Proof.
  split; [vm_compute; reflexivity|]. split; [vm_compute; reflexivity|].
  split; [vm_compute; reflexivity|]. split; [vm_compute; reflexivity|].
  intros [H|H]; vm_compute in H; exact H.
Qed.
