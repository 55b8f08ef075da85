(* When goroutines that contend for locks get through. *)

From Coq Require Import List Arith Bool.
Import ListNotations.
From Verif Require Import M_Locks.

(* A call has returned, and holds no lock any more. *)
Definition returned (t : thread) : Prop := th_prog t = [] /\ th_held t = [].

(* No goroutine can make a step. *)
Definition stuck (ts : list thread) : Prop := forall i, step ts i = None.

(* Goroutines that start with one call each. *)
Definition goroutines (ps : list (list act)) : list thread := map start ps.

(* The number of lock operations of all of them. *)
Definition operations (ps : list (list act)) : nat := length (concat ps).

(* However the goroutines are scheduled, no run is longer than two steps per
   operation, and when no step is possible any more all the calls have
   returned. *)
Definition all_return (ps : list (list act)) : Prop :=
  forall is ts, run (goroutines ps) is = Some ts ->
    length is <= 2 * operations ps /\
    (stuck ts -> Forall returned ts).

(* The goroutine waits for the lock [l] and holds no lock itself. *)
Definition waits_for (l : lock) (t : thread) : Prop :=
  (exists m p, th_prog t = Acq l m :: p) /\ th_held t = [].

(* The calls of memdb that take the lock of a block inside the lock of the
   store. *)
Definition counts (c : memcall) : bool :=
  match c with MKeys _ | MSize _ => true | _ => false end.

(* The same calls among the calls of the database. *)
Definition db_counts (c : dbcall) : bool :=
  match c with DMem c => counts c | _ => false end.

Definition closes (c : dbcall) : bool :=
  match c with DClose => true | _ => false end.

(* The calls that take the lock of Sync. *)
Definition syncs (c : dbcall) : bool :=
  match c with DSync _ | DExpire _ _ | DClose => true | _ => false end.
