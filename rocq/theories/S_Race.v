(* What becomes of a Put that has returned while other goroutines run. *)

From Coq Require Import List Arith Bool.
Import ListNotations.
From Verif Require Import M_Race.

(* Put number [i] has returned without error, with time [s], and wrote its record
   when [s] was still the current time. *)
Definition in_time (st : rst) (i s : nat) : Prop := nth_error (r_puts st) i = Some (PDone s s).

(* Put number [i] has returned without error. *)
Definition put_ok (st : rst) (i : nat) : Prop := exists s now, nth_error (r_puts st) i = Some (PDone s now).

(* Its record can be read from memory: it is in the block of time [s]. *)
Definition in_memory (st : rst) (i s : nat) : Prop :=
  exists p b d, look (r_map st) s = Some p /\ nth_error (r_blocks st) p = Some b /\
    nth_error (r_bufs st) (rb_buf b) = Some d /\ In i (rb_recs b) /\ In i d.

(* It is in a log file. *)
Definition logged (st : rst) (i : nat) : Prop := exists id d, In (id, d) (r_wal st) /\ In i d.

(* A log for time [s] is still to be written. *)
Definition pending (st : rst) (s : nat) : Prop :=
  In s (map snd (r_queue st)) \/
  match r_com st with
  | CLook _ s' | CSlice _ s' _ | CLog _ s' _ _ _ | CSet _ s' _ _ => s' = s
  | CIdle | CMark _ => False
  end.

(* The record is nowhere: not in memory, not in a log or on its way there, not
   given to the callback of the iteration or on its way there. *)
Definition gone (st : rst) (i : nat) : Prop :=
  ~ (exists s, in_memory st i s) /\ ~ logged st i /\ ~ In i (r_handed st).

(* For every continuation of a run. *)
Definition for_ever (P : rst -> Prop) (st : rst) : Prop := forall es, P (rrun st es).
