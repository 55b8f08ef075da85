(** Model of server/internal/hdl_conn.go:349-381 [onRelay] with store.go:152-163
    [MessageStore.Get] and db/unitdb/adapter.go:149-157 [Get]: stored messages are
    sent again to a client that asks for them. *)
From Verif Require Import M_Bytes M_Query M_Window M_DB S_DB M_SubStore.
Open Scope N_scope.

(** [RRelay]: a request for [topic] and [last] on a connection of contract [k] that has
    passed the checks of lines 353-363. *)
Inductive rel_op :=
| RStore (o : store_op)
| RRelay (now : Z) (g : gchoice) (k : N) (topic last : bytes).

(** [RSent]: topic and payload of the messages put in the batch of the connection (the
    delivery mode is set in the message itself, [newMsg] being the same pointer:
    lines 374-376 and conn.go:141); [RError]: lines 367-370; [RDied]: the server
    panics. *)
Inductive rel_out := RDone (x : store_out) | RSent (l : list (bytes * bytes)) | RError | RDied.

(** adapter.go:150-154; query.go:71-87 *)
Definition relay_query (c : dcfg) (now : Z) (k : N) (topic last : bytes) : query :=
  let (l, cutoff) := with_last (c_pd c) now defaultQueryLimit maxQueryLimit last 0 0 in mkQ topic k l cutoff [].
Definition relay_sent (topic : bytes) (x : dout) : rel_out :=
  match x with
  | OGot (QItems l) => RSent (map (pair topic) l)
  | OGot (QErr _ _) => RError
  | OGot _ => RDied
  | _ => RError
  end.
Definition rel_step (c : dcfg) (w : world) (o : rel_op) : world * rel_out :=
  match o with
  | RStore o => let (w', x) := store_step c w o in (w', RDone x)
  | RRelay now g k topic last =>
      match last with
      | [] => (w, RSent [])
      | _ => let (w', x) := dstep c w (DoGet now g (relay_query c now k topic last)) in (w', relay_sent topic x)
      end
  end.
Fixpoint rel_run (c : dcfg) (w : world) (ops : list rel_op) : world * list rel_out :=
  match ops with
  | [] => (w, [])
  | o :: r => let (w', x) := rel_step c w o in let (w'', xs) := rel_run c w' r in (w'', x :: xs)
  end.
