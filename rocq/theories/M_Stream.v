(** Model of server/common/conn.go and encode.go: a byte stream (net.Conn) over
    the messages of a gRPC stream, with the encoder and the decoder of
    encode.go:55-72 that server/internal/net/hdl_grpc.go:45-58 gives it. *)
From Verif Require Import M_Bytes.

(** conn.go:32-72 [Conn], the reading side.  [gc_in]: data of the packets that
    RecvMsg will still deliver, then it fails (end of the stream).  [gc_cur]:
    data of InMsg.  [gc_off]: readOffset. *)
Record gconn := mkGC { gc_in : list bytes; gc_cur : bytes; gc_off : nat }.
Definition gc_new (msgs : list bytes) : gconn := mkGC msgs [] 0.

(** conn.go:88-109 with [Decode], encode.go:66-72: the bytes copied into a
    buffer of [n] bytes.  The count that Read returns is their number. *)
Definition gc_decode (inn : list bytes) (data : bytes) (off n : nat) : bytes * gconn :=
  if (length data <=? n + off)%nat
  then (firstn n (skipn off data), mkGC inn [] 0)
  else (firstn n (skipn off data), mkGC inn data (off + n)).

(** conn.go:75-110 [Read] with a buffer of [n] bytes; [None]: the error of RecvMsg. *)
Definition gc_read (c : gconn) (n : nat) : option bytes * gconn :=
  if Nat.eqb (gc_off c) 0
  then match gc_in c with
       | [] => (None, c)
       | m :: r => let '(d, c') := gc_decode r m 0 n in (Some d, c')
       end
  else let '(d, c') := gc_decode (gc_in c) (gc_cur c) (gc_off c) n in (Some d, c').
Fixpoint gc_reads (c : gconn) (sizes : list nat) : list (option bytes) * gconn :=
  match sizes with
  | [] => ([], c)
  | n :: r => let '(o, c') := gc_read c n in let '(os, c'') := gc_reads c' r in (o :: os, c'')
  end.

(** encode.go:55-61 [Encode] gives one packet for all of [p]; encode.go:75-83
    [ChunkedEncoder] at most [size] bytes.  [None] is no limit. *)
Definition enc_take (size : option nat) (p : bytes) : bytes :=
  match size with None => p | Some k => if (k <? length p)%nat then firstn k p else p end.
(** conn.go:113-150 [Write], every SendMsg succeeds: the packets sent and the
    answer; [None]: the loop does not end.  Each turn that does not end the
    loop takes bytes away, so [length p] turns are enough if it ends at all. *)
Fixpoint gc_write_loop (fuel : nat) (size : option nat) (total : nat) (p : bytes) : option (list bytes * nat) :=
  let m := enc_take size p in
  if Nat.eqb (length m) (length p) then Some ([m], total)
  else match fuel with
       | O => None
       | S f => match gc_write_loop f size total (skipn (length m) p) with
                | Some (ms, t) => Some (m :: ms, t)
                | None => None
                end
       end.
Definition gc_write (size : option nat) (p : bytes) : option (list bytes * nat) :=
  gc_write_loop (length p) size (length p) p.
Fixpoint gc_writes (size : option nat) (ps : list bytes) : option (list bytes) :=
  match ps with
  | [] => Some []
  | p :: r => match gc_write size p, gc_writes size r with
              | Some (ms, _), Some l => Some (ms ++ l)
              | _, _ => None
              end
  end.
