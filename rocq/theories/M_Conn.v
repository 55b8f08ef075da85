(** Model of the connections of the server: server/internal/hdl_conn.go,
    conn.go, conn_cache.go, the message log and session store of
    store/store.go:183-288 and the batches of batch.go, on one node that is not
    part of a cluster.  Security keys, client identifiers, message identifiers
    and subscription counters are those of M_Keys, M_MsgIds and M_Subs.

    Goroutines: each packet a client sends is handled in one step; every
    [go c.publish] is a task that advances in separate steps (query, lookup of
    a subscriber, delivery), and the environment chooses the order.  A channel
    of the write loop takes what is sent to it; [k_out] is what the write loop
    of a connection was given, in that order.  Not modelled: the message
    database ([store.Message.Put] is an oracle), TTLs, timeouts, the bodies of
    acknowledgements, batch thresholds (a batch is sent whenever the
    environment says so) and channels that block.  *)
From Verif Require Import M_Bytes M_Hash M_Topic M_Keys M_MsgIds.
From Verif Require M_Subs.
Open Scope N_scope.

(** ** Maps with numbers as keys *)
Section AMAP.
  Context {A : Type}.
  Fixpoint aget (l : list (N * A)) (k : N) : option A :=
    match l with [] => None | (q, v) :: r => if q =? k then Some v else aget r k end.
  Definition adel (l : list (N * A)) (k : N) : list (N * A) := filter (fun e => negb (fst e =? k)) l.
  Definition aput (l : list (N * A)) (k : N) (v : A) : list (N * A) := (k, v) :: adel l k.
End AMAP.

(** utp/message.go:30-38 and flow_control.go:29-36 *)
Definition tCONNECT : N := 1.
Definition tPUBLISH : N := 2.
Definition tRELAY : N := 3.
Definition tSUBSCRIBE : N := 4.
Definition tUNSUBSCRIBE : N := 5.
Definition tPINGREQ : N := 6.
Definition fACK : N := 1.
Definition fNOTIFY : N := 2.
Definition fRECEIVE : N := 3.
Definition fRECEIPT : N := 4.
Definition fCOMPLETE : N := 5.

(** utp/publish.go:27-39, without TTL; [IsForwarded] is for clusters. *)
Record pmsg := mkPM { pm_topic : bytes; pm_payload : bytes }.
Record pub := mkPub { p_id : N; p_mode : N; p_msgs : list pmsg }.
(** What goes to a client or into the log: a publication or a control message
    (message type, flow control, message identifier). *)
Inductive packet := KPub (p : pub) | KCtl (ty flow id : N).

(** The in-memory store under store.Log and store.Session, db/unitdb/adapter.go:
    175-203: one map for packets and for the four bytes of a session. *)
Inductive lval := LPkt (p : packet) | LSess (sess : N).
Notation mlog := (list (N * lval)).

(** store.go:209, 223, 237, hdl_conn.go:252: the key of a message *)
Definition log_key (id block : N) : N := N.shiftl id 32 + u32 block.
(** store.go:286-288 [evalPrefix] *)
Definition has_prefix (block key : N) : bool := block =? N.land key (2 ^ 32 - 1).
(** hdl_conn.go:142, 151: uint64 of an int32 *)
Definition sess_key (k : Z) : N := to_unsigned 64 k.

(** A stored subscription, conn.go:199-210: contract, topic text, delivery mode,
    connection, delay (int32) and the identifier it is stored under. *)
Record subn := mkSub { s_contract : N; s_topic : bytes; s_mode : N; s_conn : N; s_delay : Z; s_id : bytes }.

(** conn.go:41-68 [_Conn].  [k_stuck]: the read loop waits for a lock forever.
    [k_batch]: the messages held by the batch manager, [None] before CONNECT. *)
Record conn := mkK {
  k_sess : N; k_client : option bytes; k_insecure : bool; k_ids : mids; k_subs : M_Subs.stats;
  k_batch : option (list pmsg); k_open : bool; k_stuck : bool; k_out : list packet }.
(** conn.go:70-92 [newConn]: the session is the number of the connection. *)
Definition conn_new (c : N) : conn := mkK c None false mids_new [] None true false [].

(** The goroutines started at hdl_conn.go:468: before the query of the
    subscriptions, at the head of the loop of conn.go:264, and before lines
    273-300 for one subscriber. *)
Inductive task :=
| TPub (c : N) (p : pub) (t : stopic) (payload : bytes)
| TLoop (c : N) (p : pub) (m : pmsg) (id : N) (todo : list subn)
| TSend (c : N) (p : pub) (m : pmsg) (id : N) (s : subn) (todo : list subn).

(** [v_next]: uid.go:30-35, connid.go:24-29; [v_nsub] numbers the stored
    subscriptions (store.Subscription.NewID gives fresh identifiers). *)
Record server := mkV {
  v_log : mlog; v_conns : list (N * conn); v_subs : list subn; v_tasks : list task; v_next : N; v_nsub : N }.
Definition server_new (next : N) : server := mkV [] [] [] [] next 0.

(** Oracles: whether the topic of a stored subscription is found by a query
    for a published topic; whether the database takes a message; the order of
    [adp.Keys]; the first four bytes of an encoded packet as a number ([None]:
    fewer than four); what the packet reader makes of the four bytes of a
    session; the text of an error and of the answer to a special request;
    whether the payload of a keygen request holds no request. *)
Record env := mkEnv {
  e_match : bytes -> bytes -> bool; e_store : bytes -> bytes -> bool; e_order : list N -> list N;
  e_head : packet -> option N; e_parse : N -> option packet;
  e_error : serr -> N -> bytes; e_reply : stopic -> bytes -> bytes; e_nokeys : bytes -> bool }.

(** The requests of a client.  The answer of [onConnect] (M_Keys) is given with
    the request, the answer of [store.Message.Get] with a relay request. *)
Inductive request :=
| QConnect (who : connected) (insecure clean : bool) (key : Z)
| QSub (subs : list (bytes * N * Z)) (id : N)
| QUnsub (topics : list bytes) (id : N)
| QPub (p : pub)
| QRelay (reqs : list (bytes * list bytes)) (id : N)
| QPing
| QFlow (ty flow id : N).

Inductive event :=
| EAccept                      (* service.go:163-168 *)
| EPacket (c : N) (q : request)
| ERun (i : nat)               (* the i-th goroutine advances *)
| EBatch (c : N)               (* the batch manager of c sends *)
| ELost (c : N)                (* conn.go:389-424; the connection broke or the client sent DISCONNECT *)
| ERestart (next : N).         (* the server is stopped and started *)

(** ** State changes *)
Definition set_log (s : server) (l : mlog) : server := mkV l (v_conns s) (v_subs s) (v_tasks s) (v_next s) (v_nsub s).
Definition set_conn (s : server) (c : N) (k : conn) : server :=
  mkV (v_log s) (aput (v_conns s) c k) (v_subs s) (v_tasks s) (v_next s) (v_nsub s).
Definition set_tasks (s : server) (l : list task) : server :=
  mkV (v_log s) (v_conns s) (v_subs s) l (v_next s) (v_nsub s).
Definition on_conn (s : server) (c : N) (f : conn -> conn) : server :=
  match aget (v_conns s) c with Some k => set_conn s c (f k) | None => s end.

Definition add_out (pk : packet) (k : conn) : conn :=
  mkK (k_sess k) (k_client k) (k_insecure k) (k_ids k) (k_subs k) (k_batch k) (k_open k) (k_stuck k) (k_out k ++ [pk]).
Definition set_stuck (k : conn) : conn :=
  mkK (k_sess k) (k_client k) (k_insecure k) (k_ids k) (k_subs k) (k_batch k) (k_open k) true (k_out k).
Definition set_ids (m : mids) (k : conn) : conn :=
  mkK (k_sess k) (k_client k) (k_insecure k) m (k_subs k) (k_batch k) (k_open k) (k_stuck k) (k_out k).
Definition set_sess (n : N) (k : conn) : conn :=
  mkK n (k_client k) (k_insecure k) (k_ids k) (k_subs k) (k_batch k) (k_open k) (k_stuck k) (k_out k).
Definition set_batch (b : option (list pmsg)) (k : conn) : conn :=
  mkK (k_sess k) (k_client k) (k_insecure k) (k_ids k) (k_subs k) b (k_open k) (k_stuck k) (k_out k).
Definition set_subs (l : M_Subs.stats) (k : conn) : conn :=
  mkK (k_sess k) (k_client k) (k_insecure k) (k_ids k) l (k_batch k) (k_open k) (k_stuck k) (k_out k).
Definition set_insecure (b : bool) (k : conn) : conn :=
  mkK (k_sess k) (k_client k) b (k_ids k) (k_subs k) (k_batch k) (k_open k) (k_stuck k) (k_out k).
Definition set_client (id : bytes) (k : conn) : conn :=
  mkK (k_sess k) (Some id) (k_insecure k) (k_ids k) (k_subs k) (k_batch k) (k_open k) (k_stuck k) (k_out k).
Definition set_closed (k : conn) : conn :=
  mkK (k_sess k) (k_client k) (k_insecure k) (k_ids k) (k_subs k) (k_batch k) false (k_stuck k) (k_out k).

(** ** The message log, store.go:203-288 *)
(** [Get]: a session is read as a packet. *)
Definition log_get (E : env) (l : mlog) (key : N) : option packet :=
  match aget l key with
  | Some (LPkt p) => Some p
  | Some (LSess n) => e_parse E n
  | None => None
  end.
Definition packet_id (pk : packet) : N := match pk with KPub p => p_id p | KCtl _ _ id => id end.
(** [PersistOutbound] *)
Definition persist_out (s : server) (block : N) (pk : packet) : server :=
  match pk with
  | KPub p => set_log s (aput (v_log s) (log_key (p_id p) block) (LPkt pk))
  | KCtl _ flow id => if flow =? fCOMPLETE then set_log s (adel (v_log s) (log_key id block)) else s
  end.
(** [PersistInbound] *)
Definition persist_in (s : server) (block : N) (pk : packet) : server :=
  match pk with
  | KCtl _ flow id => if flow =? fRECEIPT then set_log s (aput (v_log s) (log_key id block) (LPkt pk)) else s
  | KPub _ => s
  end.
(** [Keys] *)
Definition log_keys (E : env) (l : mlog) (block : N) : list N := filter (has_prefix block) (e_order E (map fst l)).
(** [Reset] *)
Definition log_reset (E : env) (l : mlog) (block : N) : mlog := fold_left adel (log_keys E l block) l.
(** [Session.Get]: a packet is read as a session, its first four bytes;
    [None]: no such key; [Some None]: rawSess[:4] is out of range. *)
Definition sess_get (E : env) (l : mlog) (key : N) : option (option N) :=
  match aget l key with
  | Some (LSess n) => Some (Some (u32 n))
  | Some (LPkt p) => Some (option_map u32 (e_head E p))
  | None => None
  end.

(** ** Sending *)
(** [c.send <- pk] and [c.pub <- pk] while the write loop runs *)
Definition put_out (s : server) (c : N) (pk : packet) : server :=
  on_conn s c (fun k => if k_open k then add_out pk k else k).
Definition is_stuck (s : server) (c : N) : bool :=
  match aget (v_conns s) c with Some k => k_stuck k | None => false end.
(** a send of the handler of [c] itself *)
Definition ack (s : server) (c : N) (pk : packet) : server := if is_stuck s c then s else put_out s c pk.

(** uint16 of [NextID]; [None]: the call does not return. *)
Definition next_id (s : server) (c : N) : server * option N :=
  match aget (v_conns s) c with
  | None => (s, None)
  | Some k => let '(m, r) := mids_step (k_ids k) (MNext tPUBLISH) in
              (set_conn s c (set_ids m k), match r with Some z => Some (Z.to_N (wire_id z)) | None => None end)
  end.

(** batch.go:93-108 [add]; [None]: nil pointer.  The batches of a closed
    connection are not sent any more. *)
Definition batch_add (s : server) (c : N) (m : pmsg) : option server :=
  match aget (v_conns s) c with
  | None => Some s
  | Some k => match k_batch k with
              | None => None
              | Some l => Some (set_conn s c (set_batch (Some (l ++ [m])) k))
              end
  end.

(** conn.go:126-157 [SendMessage] to connection [c]; the answer is the
    identifier the message has afterwards.  [None]: panic; [Some (s, None)]:
    the call does not return. *)
Definition send_message (s : server) (c id mode : N) (delay : Z) (m : pmsg) : option (server * option N) :=
  let '(s1, r) := if id =? 0 then next_id s c else (s, Some id) in
  match r with
  | None => Some (s1, None)
  | Some i =>
      if (mode =? 2) || (0 <? delay)%Z then
        match batch_add s1 c m with Some s2 => Some (s2, Some i) | None => None end
      else
        let pk := KPub (mkPub i mode [m]) in
        Some (put_out (persist_out s1 c pk) c pk, Some i)
  end.

(** "unitdb/error/", "unitdb/clientid/", "unitdb/" *)
Definition tError : bytes := [117; 110; 105; 116; 100; 98; 47; 101; 114; 114; 111; 114; 47].
Definition tClientid : bytes := [117; 110; 105; 116; 100; 98; 47; 99; 108; 105; 101; 110; 116; 105; 100; 47].
Definition tUnitdb : bytes := [117; 110; 105; 116; 100; 98; 47].

(** A message of the server to the client whose packet it handles. *)
Definition say (s : server) (c : N) (m : pmsg) : option server :=
  match send_message s c 0 0 0 m with
  | None => None
  | Some (s1, Some _) => Some s1
  | Some (s1, None) => Some (on_conn s1 c set_stuck)
  end.
(** conn.go:355-363 [notifyError] *)
Definition notify_error (E : env) (s : server) (c : N) (e : serr) (id : N) : option server :=
  say s c (mkPM tError (e_error E e id)).

(** ** CONNECT, hdl_conn.go:95-160 *)
(** conn.go:316-344 [resume], one key *)
Definition resume_key (E : env) (c : N) (s : server) (key : N) : server :=
  match log_get E (v_log s) key with
  | None => s
  | Some pk =>
      if N.testbit key 4 then set_log s (adel (v_log s) key)
      else match pk with
           | KPub p =>
               put_out (on_conn s c (fun k => set_ids (fst (mids_step (k_ids k) (MResume (Z.of_N (p_id p))))) k))
                       c (KCtl tPUBLISH fNOTIFY (p_id p))
           | KCtl _ _ _ => set_log s (adel (v_log s) key)
           end
  end.
Definition resume (E : env) (s : server) (c block : N) : server :=
  fold_left (resume_key E c) (log_keys E (v_log s) block) s.

(** conn.go:389-424 [close].  [None]: the contract of a nil identifier. *)
Definition close_conn (s : server) (c : N) : option server :=
  match aget (v_conns s) c with
  | None => Some s
  | Some k =>
      if negb (k_open k) then Some s
      else
        let mine := fun n contract =>
          (s_contract n =? contract) && existsb (fun e => M_Subs.beq (M_Subs.st_id (snd e)) (s_id n)) (k_subs k) in
        match k_subs k, k_client k with
        | [], _ => Some (set_conn s c (set_closed k))
        | _, None => None
        | _, Some id =>
            Some (set_conn (mkV (v_log s) (v_conns s) (filter (fun n => negb (mine n (id_contract id))) (v_subs s))
                                (v_tasks s) (v_next s) (v_nsub s)) c (set_closed k))
        end
  end.

(** The key of the session, hdl_conn.go:134-139; the epoch as an int32. *)
Definition epoch32 (id : bytes) : Z := to_signed 32 (u32 (id_epoch id)).
Definition session_key (id : bytes) (key : Z) : Z := if (i32 key =? 0)%Z then epoch32 id else i32 key.

Definition on_connect_msg (E : env) (s : server) (c : N) (who : connected) (insecure clean : bool) (key : Z)
  : option server :=
  let s0 := on_conn s c (set_insecure insecure) in
  match who with
  | CPanic => None
  | CRefused id =>
      (* 103-121: the new identifier is sent and the connection closed *)
      match say (put_out s0 c (KCtl tCONNECT fACK 0)) c (mkPM tClientid id) with
      | None => None
      | Some s1 => if is_stuck s1 c then Some s1 else close_conn s1 c
      end
  | CAccepted id _ =>
      let s1 := on_conn (put_out s0 c (KCtl tCONNECT fACK 0)) c (set_client id) in
      match aget (v_conns s1) c with
      | None => Some s1
      | Some k =>
          if m_hung (k_ids k) then Some (on_conn s1 c set_stuck)
          else
            let s2 := on_conn s1 c (fun k => set_batch (Some []) (set_ids (fst (mids_step (k_ids k) MReset)) k)) in
            let sk := session_key id key in
            let sessID := k_sess k in
            match (match sess_get E (v_log s2) (sess_key sk) with
                   | None => Some s2
                   | Some None => None
                   | Some (Some old) =>
                       let s3 := if clean then set_log s2 (log_reset E (v_log s2) old) else resume E s2 c old in
                       Some (on_conn s3 c (set_sess old))
                   end) with
            | None => None
            | Some s4 =>
                let s5 := set_log s4 (aput (v_log s4) (sess_key sk) (LSess sessID)) in
                Some (if (sk =? epoch32 id)%Z then s5
                      else set_log s5 (aput (v_log s5) (u32 (id_epoch id)) (LSess sessID)))
            end
      end
  end.

(** ** Checks of a request *)
(** hdl_conn.go:489-507 for a connection without identifier: the error, or
    [None] for the nil identifier at line 502. *)
Definition secure_nil (t : stopic) : option serr :=
  match decode_key (st_key t) with
  | None => Some ErrBadRequest
  | Some k => if negb (has_permission k AllowRead) then Some ErrUnauthorized else None
  end.
(** [on_subscribe] and [on_publish] (M_Keys) for the identifier of the
    connection.  After them the code needs the contract: without identifier
    the outcome is an error or a panic (for a special request see below). *)
Definition check_sub (k : conn) (text : bytes) : verdict :=
  match k_client k with
  | Some id => on_subscribe (k_insecure k) (id_contract id) text
  | None =>
      match parse_skey text with
      | None => VPanic
      | Some t => if st_invalid t then VRefused ErrBadRequest
                  else if k_insecure k then VPanic
                  else match secure_nil t with Some e => VRefused e | None => VPanic end
      end
  end.
Definition check_pub (k : conn) (text : bytes) : verdict :=
  match k_client k with
  | Some id => on_publish (k_insecure k) (id_contract id) text
  | None =>
      match parse_skey text with
      | None => VPanic
      | Some t => if st_invalid t then VRefused ErrBadRequest
                  else if list_eq_dec N.eq_dec (st_key t) kUnitdb then VSpecial t
                  else if k_insecure k then VPanic
                  else match secure_nil t with Some e => VRefused e | None => VPanic end
      end
  end.

(** ** SUBSCRIBE, UNSUBSCRIBE, RELAY: hdl_conn.go:161-233, conn.go:180-245.
    An error of the store or of the key generator is ErrServerError; its text
    is [e_error] of [ErrForbidden] here (the kind of an error is not used). *)
Definition sub_one (E : env) (s : server) (c id : N) (req : bytes * N * Z) : option server :=
  let '(text, mode, delay) := req in
  match aget (v_conns s) c with
  | None => Some s
  | Some k =>
      match check_sub k text, k_client k with
      | VRefused e, _ => notify_error E s c e id
      | VAllowed t, Some cl =>
          match (match st_key t with [] => generate_key (id_contract cl) (st_topic t) AllowNone | ky => Some ky end) with
          | None => notify_error E s c ErrForbidden id
          | Some ky =>
              let fresh := le 8 (v_nsub s) in
              let '(st, first) := M_Subs.increment (k_subs k) (st_name t) ky fresh in
              let s1 := set_conn s c (set_subs st k) in
              let s2 := mkV (v_log s1) (v_conns s1) (v_subs s1) (v_tasks s1) (v_next s1) (v_nsub s1 + 1) in
              if first then
                if e_store E (st_topic t) [] then
                  Some (mkV (v_log s2) (v_conns s2)
                            (mkSub (id_contract cl) (st_topic t) (u8 mode) c delay fresh :: v_subs s2)
                            (v_tasks s2) (v_next s2) (v_nsub s2))
                else notify_error E s2 c ErrForbidden id
              else Some s2
          end
      | _, _ => None
      end
  end.
Definition unsub_one (E : env) (s : server) (c id : N) (text : bytes) : option server :=
  match aget (v_conns s) c with
  | None => Some s
  | Some k =>
      match check_sub k text, k_client k with
      | VRefused e, _ => notify_error E s c e id
      | VAllowed t, Some cl =>
          let '(st, (last, sid)) := M_Subs.decrement (k_subs k) (st_key t) in
          let s1 := set_conn s c (set_subs st k) in
          match last, sid with
          | true, Some sid =>
              Some (mkV (v_log s1) (v_conns s1)
                        (filter (fun n => negb ((s_contract n =? id_contract cl) && M_Subs.beq (s_id n) sid)) (v_subs s1))
                        (v_tasks s1) (v_next s1) (v_nsub s1))
          | _, _ => Some s1
          end
      | _, _ => None
      end
  end.
(** hdl_conn.go:349-380 [onRelay]; no [Last], no messages. *)
Fixpoint relay_all (s : server) (c : N) (topic : bytes) (l : list bytes) : option server :=
  match l with
  | [] => Some s
  | m :: r =>
      match send_message s c 0 2 0 (mkPM topic m) with
      | None => None
      | Some (s1, Some _) => relay_all s1 c topic r
      | Some (s1, None) => Some (on_conn s1 c set_stuck)
      end
  end.
Definition relay_one (E : env) (s : server) (c id : N) (req : bytes * list bytes) : option server :=
  match aget (v_conns s) c with
  | None => Some s
  | Some k =>
      match check_sub k (fst req), k_client k with
      | VRefused e, _ => notify_error E s c e id
      | VAllowed t, Some _ => relay_all s c (st_topic t) (snd req)
      | _, _ => None
      end
  end.
(** The loops over the requests of one packet: *)
Fixpoint each {A} (f : server -> A -> option server) (s : server) (c : N) (l : list A) : option server :=
  match l with
  | [] => Some s
  | x :: r => if is_stuck s c then Some s
              else match f s x with None => None | Some s1 => each f s1 c r end
  end.

(** ** PUBLISH, hdl_conn.go:236-241, 437-487, 510-588 *)
Definition special_nil (E : env) (t : stopic) (payload : bytes) : bool :=   (* panics without identifier *)
  match on_special t with
  | SNotFound => false
  | SClientId => true
  | SKeygen => negb (e_nokeys E payload)
  end.
(** the loop of [onPublish]; the flag says whether line 475 is reached. *)
Fixpoint pub_msgs (E : env) (s : server) (c : N) (p : pub) (l : list pmsg) : option (server * bool) :=
  match l with
  | [] => Some (s, true)
  | m :: r =>
      match aget (v_conns s) c with
      | None => Some (s, false)
      | Some k =>
          match check_pub k (pm_topic m), k_client k with
          | VRefused e, _ => option_map (fun s1 => (s1, false)) (notify_error E s c e (p_id p))
          | VSpecial t, cl =>
              if match cl with None => special_nil E t (pm_payload m) | Some _ => false end then None
              else option_map (fun s1 => (s1, false))
                     (say s c (mkPM (tUnitdb ++ st_name t) (e_reply E t (pm_payload m))))
          | VAllowed t, Some _ =>
              if e_store E (st_topic t) (pm_payload m)
              then pub_msgs E (set_tasks s (v_tasks s ++ [TPub c p t (pm_payload m)])) c p r
              else option_map (fun s1 => (s1, false)) (notify_error E s c ErrForbidden (p_id p))
          | _, _ => None
          end
      end
  end.

(** ** FLOWCONTROL, hdl_conn.go:242-275 *)
Definition on_flow (E : env) (s : server) (c ty flow id : N) : option server :=
  match aget (v_conns s) c with
  | None => Some s
  | Some k =>
      let known := match k_client k with Some _ => true | None => false end in
      let s1 := if known then persist_in s (k_sess k) (KCtl ty flow id) else s in
      if flow =? fRECEIVE then
        match log_get E (v_log s1) (log_key id (k_sess k)) with
        | None => close_conn s1 c
        | Some (KPub p) => Some (put_out s1 c (KPub p))
        | Some (KCtl _ _ _) => Some s1
        end
      else if flow =? fRECEIPT then
        let comp := KCtl tPUBLISH fCOMPLETE id in
        Some (put_out (if known then persist_out s1 (k_sess k) comp else s1) c comp)
      else Some s1
  end.

(** hdl_conn.go:79-280 [handler] *)
Definition handle (E : env) (s : server) (c : N) (q : request) : option server :=
  match q with
  | QConnect who insecure clean key => on_connect_msg E s c who insecure clean key
  | QSub l id => option_map (fun s1 => ack s1 c (KCtl tSUBSCRIBE fACK id)) (each (fun s x => sub_one E s c id x) s c l)
  | QUnsub l id => option_map (fun s1 => ack s1 c (KCtl tUNSUBSCRIBE fACK id)) (each (fun s x => unsub_one E s c id x) s c l)
  | QRelay l id => option_map (fun s1 => ack s1 c (KCtl tRELAY fACK id)) (each (fun s x => relay_one E s c id x) s c l)
  | QPub p => option_map (fun r => if snd r : bool then ack (fst r) c (KCtl tPUBLISH fACK (p_id p)) else fst r)
                         (pub_msgs E s c p (p_msgs p))
  | QPing => Some (ack s c (KCtl tPINGREQ fACK 0))
  | QFlow ty flow id => on_flow E s c ty flow id
  end.

(** ** conn.go:248-313 [publish], one step of it: the state and what is left. *)
Definition reliable (mode : N) : bool := (mode =? 1) || (mode =? 2).
Definition run_task (E : env) (s : server) (t : task) : option (server * option task) :=
  match t with
  | TPub c p t payload =>
      match aget (v_conns s) c with
      | None => Some (s, None)
      | Some k =>
          match k_client k with
          | None => None
          | Some id =>
              let found := filter (fun n => (s_contract n =? id_contract id) && e_match E (s_topic n) (st_topic t)) (v_subs s) in
              Some (s, Some (TLoop c p (mkPM (st_name t) payload) (p_id p) found))
          end
      end
  | TLoop c p m id [] => Some (s, None)
  | TLoop c p m id (n :: todo) =>
      match aget (v_conns s) (s_conn n) with
      | Some sub =>
          if k_open sub then
            let '(s1, r) := if id =? 0 then next_id s c else (s, Some id) in
            match r with
            | None => Some (s1, None)                    (* waits forever *)
            | Some i => Some (s1, Some (TSend c p m i n todo))
            end
          else Some (s, Some (TLoop c p m id todo))
      | None => Some (s, Some (TLoop c p m id todo))
      end
  | TSend c p m id n todo =>
      match aget (v_conns s) (s_conn n) with
      | None => Some (s, None)
      | Some sub =>
          let express :=
            match send_message s (s_conn n) id (s_mode n) (s_delay n) m with
            | None => None
            | Some (s1, Some i) => Some (s1, Some (TLoop c p m i todo))
            | Some (s1, None) => Some (s1, None)
            end in
          if reliable (p_mode p) then
            if reliable (s_mode n) then
              (* line 286: a send on a closed channel panics *)
              if k_open sub then
                Some (put_out (persist_out s (k_sess sub) (KPub p)) (s_conn n) (KCtl tPUBLISH fNOTIFY id),
                      Some (TLoop c p m id todo))
              else None
            else if s_mode n =? 0 then express else Some (s, Some (TLoop c p m id todo))
          else if p_mode p =? 0 then express else Some (s, Some (TLoop c p m id todo))
      end
  end.

(** batch.go:180-217 [publish] of the batch manager, with all it holds. *)
Definition send_batch (s : server) (c : N) : server :=
  match aget (v_conns s) c with
  | None => s
  | Some k =>
      match k_batch k with
      | None | Some [] => s
      | Some l =>
          if k_open k then
            let '(s1, r) := next_id (set_conn s c (set_batch (Some []) k)) c in
            match r with
            | None => s1
            | Some i => let pk := KPub (mkPub i 0 l) in put_out (persist_out s1 c pk) c pk
            end
          else s
      end
  end.

Definition step (E : env) (s : server) (ev : event) : option server :=
  match ev with
  | EAccept =>
      let c := u32 (v_next s + 1) in
      Some (mkV (v_log s) (aput (v_conns s) c (conn_new c)) (v_subs s) (v_tasks s) c (v_nsub s))
  | EPacket c q =>
      match aget (v_conns s) c with
      | Some k => if k_open k && negb (k_stuck k) then handle E s c q else Some s
      | None => Some s
      end
  | ERun i =>
      match nth_error (v_tasks s) i with
      | None => Some s
      | Some t =>
          match run_task E s t with
          | None => None
          | Some (s1, r) =>
              Some (set_tasks s1 (firstn i (v_tasks s) ++ (match r with Some t' => [t'] | None => [] end)
                                  ++ skipn (S i) (v_tasks s)))
          end
      end
  | EBatch c => Some (send_batch s c)
  | ELost c => close_conn s c
  | ERestart n => Some (mkV (v_log s) [] (v_subs s) [] n (v_nsub s))
  end.
Fixpoint run (E : env) (s : server) (es : list event) : option server :=
  match es with
  | [] => Some s
  | ev :: r => match step E s ev with None => None | Some s1 => run E s1 r end
  end.
(** What connection [c] was sent. *)
Definition out (s : server) (c : N) : list packet :=
  match aget (v_conns s) c with Some k => k_out k | None => [] end.
