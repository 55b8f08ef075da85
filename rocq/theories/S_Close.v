(** C112 and C113: the end of a connection and those who send to it. *)
From Verif Require Import M_Close.

Definition reached (s : cst) : Prop := exists es, run conn_start es = Some s.
Definition closes (ev : event) : bool := match ev with EClose => true | _ => false end.
Definition tries (ev : event) : bool := match ev with ETry => true | _ => false end.
(** How often something happens in a run *)
Definition times (f : event -> bool) (es : list event) : nat := length (filter f es).
(** A run of the goroutines in which the closing gets its turns: someone
    begins to close, closes the signal; the write loop takes the case of the
    signal; the closing goes on. *)
Definition fair (es : list event) : Prop :=
  exists es1 es2 es3 es4, es = es1 ++ [ETry] ++ es2 ++ [EClose] ++ es3 ++ [EExit] ++ es4 /\ 4 <= times closes es4.
(** The connection is gone. *)
Definition ended (s : cst) : Prop :=
  c_phase s = CDone /\ c_subs s = false /\ c_cached s = false /\ c_reader s = RGone /\ c_writer s = false.
(** Events of the connection itself, not of those who publish to it *)
Definition own (ev : event) : Prop := match ev with EPublish | EPub _ => False | _ => True end.
(** The client does something: a packet, or it closes its socket. *)
Definition of_client (ev : event) : Prop := match ev with EPacket _ | EDisconnect | ELost => True | _ => False end.
(** Nothing the goroutines of the connection can do changes anything. *)
Definition blocked (s : cst) : Prop := forall ev, own ev -> step s ev = Some s.
