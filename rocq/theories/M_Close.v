(** The end of a connection of the server: the read loop, the write loop, the
    closing and the goroutines that publish to it, server/internal/conn.go and
    hdl_conn.go.  One connection that is not of another node; the context of
    the service is not cancelled.  What is written, batches and the express
    channel [pub] (sends on it give up after a time) are not in the model. *)
From Coq Require Export List Arith Bool.
Export ListNotations.

(** hdl_conn.go:45-75 [readLoop]: at the select, in [lp.Read], in the handler
    with that many sends on [c.send] to come, or returned. *)
Inductive reader := RTop | RRead | RHand (sends : nat) | RGone.
(** conn.go:389-424 [close]; the order is that of the lines. *)
Inductive phase := CIdle | CSignal | CWait | CUnsub | CCache | CSend | CDone.
(** conn.go:262-312 [publish] of another connection at this subscriber: the
    subscription is found, the connection is taken from the cache, sent. *)
Inductive publ := PFind | PHas | POver.

Record cst := mkC {
  c_reader : reader;
  c_writer : bool;        (* [writeLoop] runs *)
  c_phase : phase;        (* [closed] is set but in [CIdle] *)
  c_tries : nat;          (* goroutines about to call [close] *)
  c_signal : bool;        (* [closeC] is closed *)
  c_buf : nat;            (* messages in [c.send], conn.go:74: at most one *)
  c_over : bool;          (* [c.send] is closed *)
  c_cached : bool;        (* in [connCache] *)
  c_subs : bool;          (* its subscriptions are stored *)
  c_pubs : list publ
}.

Definition set_reader r s := mkC r (c_writer s) (c_phase s) (c_tries s) (c_signal s) (c_buf s) (c_over s) (c_cached s) (c_subs s) (c_pubs s).
Definition set_writer w s := mkC (c_reader s) w (c_phase s) (c_tries s) (c_signal s) (c_buf s) (c_over s) (c_cached s) (c_subs s) (c_pubs s).
Definition set_phase p s := mkC (c_reader s) (c_writer s) p (c_tries s) (c_signal s) (c_buf s) (c_over s) (c_cached s) (c_subs s) (c_pubs s).
Definition set_tries n s := mkC (c_reader s) (c_writer s) (c_phase s) n (c_signal s) (c_buf s) (c_over s) (c_cached s) (c_subs s) (c_pubs s).
Definition set_signal s := mkC (c_reader s) (c_writer s) (c_phase s) (c_tries s) true (c_buf s) (c_over s) (c_cached s) (c_subs s) (c_pubs s).
Definition set_buf n s := mkC (c_reader s) (c_writer s) (c_phase s) (c_tries s) (c_signal s) n (c_over s) (c_cached s) (c_subs s) (c_pubs s).
Definition set_over s := mkC (c_reader s) (c_writer s) (c_phase s) (c_tries s) (c_signal s) (c_buf s) true (c_cached s) (c_subs s) (c_pubs s).
Definition set_uncached s := mkC (c_reader s) (c_writer s) (c_phase s) (c_tries s) (c_signal s) (c_buf s) (c_over s) false (c_subs s) (c_pubs s).
Definition set_unsub s := mkC (c_reader s) (c_writer s) (c_phase s) (c_tries s) (c_signal s) (c_buf s) (c_over s) (c_cached s) false (c_pubs s).
Definition set_pubs l s := mkC (c_reader s) (c_writer s) (c_phase s) (c_tries s) (c_signal s) (c_buf s) (c_over s) (c_cached s) (c_subs s) l.

(** service.go:163-168 [onAcceptConn] with conn.go:69-92 [newConn], of a
    client that has subscribed *)
Definition conn_start : cst := mkC RTop true CIdle 0 false 0 false true true [].

Inductive event :=
| EReader                   (* the read loop goes on *)
| EPacket (sends : nat)     (* a packet whose handler sends that often *)
| EDisconnect               (* a DISCONNECT, hdl_conn.go:157-158 *)
| ELost                     (* [lp.Read] fails: lost, or after 120 seconds *)
| EFail                     (* the handler returns an error *)
| ETake                     (* the write loop takes a message, or sees the channel closed *)
| EExit                     (* the write loop takes the case of [closeC] *)
| EEncode                   (* [lp.Encode] fails, hdl_conn.go:304-307 *)
| EEncodePub                (* and of a message of [c.pub], hdl_conn.go:294-297 *)
| ETry                      (* a goroutine that wants to close *)
| EClose                    (* [close] goes on *)
| EPublish                  (* a publication finds a subscription of the connection *)
| EPub (i : nat).           (* that goroutine goes on *)

(** A send on [c.send], which has room for one; [None]: panic *)
Definition chan_send (s : cst) : option (option cst) :=
  if c_over s then None else if c_buf s <? 1 then Some (Some (set_buf (S (c_buf s)) s)) else Some None.
Definition upd {A} (l : list A) (i : nat) (x : A) : list A := firstn i l ++ [x] ++ skipn (S i) l.

(** [None]: panic.  A step that is not possible leaves all as it is. *)
Definition step (s : cst) (ev : event) : option cst :=
  match ev with
  | EReader =>
      match c_reader s with
      | RTop => Some (if c_signal s then set_reader RGone s else set_reader RRead s)       (* hdl_conn.go:59-64 *)
      | RHand 0 => Some (set_reader RTop s)
      | RHand (S k) => match chan_send s with                                              (* hdl_conn.go:116 and others *)
                       | None => None
                       | Some None => Some s
                       | Some (Some s1) => Some (set_reader (RHand k) s1)
                       end
      | _ => Some s
      end
  | EPacket n => match c_reader s with RRead => Some (set_reader (RHand n) s) | _ => Some s end
  | EDisconnect => match c_reader s with RRead => Some (set_reader RTop (set_tries (S (c_tries s)) s)) | _ => Some s end
  | ELost => match c_reader s with RRead => Some (set_reader RGone (set_tries (S (c_tries s)) s)) | _ => Some s end    (* hdl_conn.go:48-54 *)
  | EFail => match c_reader s with RHand 0 => Some (set_reader RGone (set_tries (S (c_tries s)) s)) | _ => Some s end
  | ETake =>                                                                               (* hdl_conn.go:299-308 *)
      if c_writer s then
        match c_buf s with
        | S n => Some (set_buf n s)
        | O => if c_over s then Some (set_writer false s) else Some s
        end
      else Some s
  | EExit => if c_writer s && c_signal s then Some (set_writer false s) else Some s         (* hdl_conn.go:287-288 *)
  | EEncode =>
      if c_writer s then
        match c_buf s with S n => Some (set_writer false (set_tries (S (c_tries s)) (set_buf n s))) | O => Some s end
      else Some s
  | EEncodePub => if c_writer s then Some (set_writer false (set_tries (S (c_tries s)) s)) else Some s
  | ETry =>                                                                                (* conn.go:427-447, 395-397 *)
      match c_tries s with
      | O => Some s
      | S n => let s1 := set_tries n s in
               match c_phase s with CIdle => Some (set_phase CSignal s1) | _ => Some s1 end
      end
  | EClose =>
      match c_phase s with
      | CIdle | CDone => Some s
      | CSignal => if c_signal s then None else Some (set_phase CWait (set_signal s))      (* conn.go:400 *)
      | CWait => match c_reader s, c_writer s with                                         (* conn.go:401 *)
                 | RGone, false => Some (set_phase CUnsub s)
                 | _, _ => Some s
                 end
      | CUnsub => Some (set_phase CCache (set_unsub s))                                    (* conn.go:405-411 *)
      | CCache => Some (set_phase CSend (set_uncached s))                                  (* conn.go:413 *)
      | CSend => if c_over s then None else Some (set_phase CDone (set_over s))            (* conn.go:416 *)
      end
  | EPublish => if c_subs s then Some (set_pubs (c_pubs s ++ [PFind]) s) else Some s        (* conn.go:255 *)
  | EPub i =>
      match nth_error (c_pubs s) i with
      | Some PFind => Some (set_pubs (upd (c_pubs s) i (if c_cached s then PHas else POver)) s)    (* conn.go:268-269 *)
      | Some PHas => match chan_send s with                                                (* conn.go:286 *)
                     | None => None
                     | Some None => Some s
                     | Some (Some s1) => Some (set_pubs (upd (c_pubs s) i POver) s1)
                     end
      | _ => Some s
      end
  end.

Fixpoint run (s : cst) (es : list event) : option cst :=
  match es with
  | [] => Some s
  | ev :: r => match step s ev with Some s1 => run s1 r | None => None end
  end.
