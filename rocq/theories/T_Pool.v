(** C108: a write of a batch returns.  C109: Close of the log pool returns, and
    nothing panics. *)
From Verif Require Import M_Pool S_Pool P_Pool P_PoolLive P_PoolClose P_PoolEx.
From Coq Require Import List Arith.
Import ListNotations.

(** While the log queue is never full, and without Close. *)
Theorem C108_partial : forall cap ev i n, fair ev -> never ev EClose -> never_full cap ev ->
  waits (pool_at cap ev n) i -> exists m, n <= m /\ returned (pool_at cap ev m) i.
Proof. exact write_returns. Qed.
Print Assumptions C108_partial.

(** In any case: it returns, or its log was dropped, or the process has panicked. *)
Theorem C108_else_partial : forall cap ev i n x, fair ev ->
  nth_error (p_bw (pool_at cap ev n)) i = Some (BWait x) ->
  exists m, n <= m /\ (p_panic (pool_at cap ev m) = true \/ In x (p_drop (pool_at cap ev m)) \/
                       returned (pool_at cap ev m) i).
Proof. exact write_or_drop. Qed.
Print Assumptions C108_else_partial.

(** A full queue: the log is dropped, and its Write waits for ever. *)
Theorem C108_refuted : forall cap, exists l, ~ In EClose l /\
  let s := pool_run cap pool_start l in
  p_panic s = false /\ forall l', waits (pool_run cap s l') 0.
Proof. exact hangs. Qed.
Print Assumptions C108_refuted.

Example C108_example : fair ev_write /\ never ev_write EClose /\ never_full 27 ev_write /\
  waits (pool_at 27 ev_write 2) 0.
Proof. exact write_example. Qed.

Theorem C109_partial : forall cap ev, fair ev -> again ev EClose -> never ev EBatch ->
  exists m, p_close (pool_at cap ev m) = XRet.
Proof. exact close_returns. Qed.
Print Assumptions C109_partial.

Theorem C109_else_partial : forall cap ev, fair ev -> again ev EClose ->
  exists m, p_panic (pool_at cap ev m) = true \/ p_close (pool_at cap ev m) = XRet.
Proof. exact close_or_panic. Qed.
Print Assumptions C109_else_partial.

(** A Write that comes when Close has returned panics. *)
Theorem C109_after_refuted : forall cap, 1 <= cap ->
  let s := pool_run cap pool_start closing in
  p_close s = XRet /\ p_panic s = false /\ p_panic (pool_step cap s (EWrite 0)) = true.
Proof. exact write_after_close. Qed.
Print Assumptions C109_after_refuted.

(** So does one that waits to send while Close closes the queue. *)
Theorem C109_refuted : forall cap,
  let s := pool_run cap pool_start [EBatch; EClose; ELoop; ELoop; EWrite 0] in
  waits s 0 /\ p_close s = XWait /\ p_panic s = false /\ p_panic (pool_step cap s ELoop) = true.
Proof. exact write_and_close. Qed.
Print Assumptions C109_refuted.

Example C109_example : fair ev_close /\ again ev_close EClose /\ never ev_close EBatch.
Proof. exact close_example. Qed.
