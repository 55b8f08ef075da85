(** Model of the statsd client of the server, server/internal/pkg/stats:
    buffers.go and the loops of stats.go.  One sender; buffers are values, so
    the pool of buffers has no part in it (the tail is copied before the
    buffer is queued, buffers.go:43-48). *)
From Verif Require Import M_Bytes.

(** stats.go:50-66 [transport]: the packet being filled, the send queue and the
    lost packets counted; [t_wire] are the datagrams written to the socket. *)
Record transport := mkT { t_buf : bytes; t_queue : list bytes; t_lost : nat; t_wire : list bytes }.
Definition t_new : transport := mkT [] [] 0 [].

(** buffers.go:31-55 [flushBuf]; [cap] is the capacity of the queue. *)
Definition flushBuf (cap : nat) (t : transport) (len : nat) : transport :=
  let sendBuf := firstn len (t_buf t) in
  let tail := skipn len (t_buf t) in
  if (length (t_queue t) <? cap)%nat
  then mkT tail (t_queue t ++ [sendBuf]) (t_lost t) (t_wire t)
  else mkT tail (t_queue t) (S (t_lost t)) (t_wire t).
(** buffers.go:24-28 [checkBuf] *)
Definition checkBuf (cap max : nat) (t : transport) (lastLen : nat) : transport :=
  if (max <? length (t_buf t))%nat then flushBuf cap t lastLen else t.
(** stats.go:249-270, 280-349: [Incr], [Timing], [PrecisionTiming] and [SetAdd]
    append one line (its text is not modelled, it ends in a newline) and check
    the buffer.  [Incr] with count 0 does nothing. *)
Definition add_metric (cap max : nat) (t : transport) (line : bytes) : transport :=
  checkBuf cap max (mkT (t_buf t ++ line) (t_queue t) (t_lost t) (t_wire t)) (length (t_buf t)).
(** stats.go:143-148: one turn of [flushLoop]. *)
Definition flush_tick (cap : nat) (t : transport) : transport :=
  match t_buf t with [] => t | _ => flushBuf cap t (length (t_buf t)) end.
(** stats.go:176-193: one packet of [sendLoop]; [ok]: the socket takes it.  The
    last byte (the newline) is cut off; an empty packet is not written. *)
Definition send_one (t : transport) (ok : bool) : transport :=
  match t_queue t with
  | [] => t
  | b :: q => mkT (t_buf t) q (t_lost t)
                  (match b with
                   | [] => t_wire t
                   | _ => if ok then t_wire t ++ [firstn (length b - 1) b] else t_wire t
                   end)
  end.

Inductive sop := SMetric (line : bytes) | STick | SSend (ok : bool).
Definition sstep (cap max : nat) (t : transport) (o : sop) : transport :=
  match o with
  | SMetric l => add_metric cap max t l
  | STick => flush_tick cap t
  | SSend ok => send_one t ok
  end.
Definition srun (cap max : nat) (ops : list sop) : transport := fold_left (sstep cap max) ops t_new.
