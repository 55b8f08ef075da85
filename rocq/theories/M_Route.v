(** Model of the requests that the nodes of a cluster forward to each other:
    server/internal/cluster.go:264-441, 514-556 and the branches for clusters in
    conn.go:94-113, 180-313, 389-424 and hdl_conn.go.  Each node is a server of
    [M_Conn] with its own stores.  Every call between nodes is answered here;
    calls that fail are in [M_Failover].  *)
From Verif Require Import M_Bytes M_Keys M_MsgIds M_Conn.
From Verif Require M_Subs.
Open Scope N_scope.

(** [rc_ring n contract]: the owner of a contract by the ring of node n
    (cluster.go:352-373); [rc_agree n m]: their rings have the same signature.
    The rings do not change here, and every node has all the others in its
    configuration. *)
Record rings := mkRC { rc_ring : nat -> N -> nat; rc_agree : nat -> nat -> bool }.

(** A node: the server; [IsForwarded] for each of its goroutines of [publish];
    its proxied connections with the node they come from ([clnode]); for its
    connections the nodes to inform ([nodes]).

    Proxied connections are entries of [v_conns] as well, found by their number
    like all others: a goroutine that holds a connection which has been replaced
    under the same number works with the new one here.  Their [k_out] is what was
    offered to their channels and not taken by [rpcWriteLoop]: control messages
    to [send], publications to [pub]. *)
Record cnode := mkCN { cn_srv : server; cn_fwd : list bool; cn_remote : list (N * nat); cn_told : list (N * nat) }.
Notation net := (nat -> cnode).
Definition cnode_new (next : N) : cnode := mkCN (server_new next) [] [] [].
Definition put_node (G : net) (n : nat) (x : cnode) : net := fun m => if Nat.eqb m n then x else G m.
Definition set_srv (s : server) (x : cnode) : cnode := mkCN s (cn_fwd x) (cn_remote x) (cn_told x).
Definition lift (G : net) (n : nat) (r : option server) : option net :=
  match r with Some s => Some (put_node G n (set_srv s (G n))) | None => None end.
(** new goroutines *)
Definition started (fwd : bool) (x : cnode) : cnode :=
  mkCN (cn_srv x) (cn_fwd x ++ repeat fwd (length (v_tasks (cn_srv x)) - length (cn_fwd x))) (cn_remote x) (cn_told x).

(** conn_cache.go:45-54: connections that are closed are not found. *)
Definition live (s : server) (c : N) : option conn :=
  match aget (v_conns s) c with Some k => if k_open k then Some k else None | None => None end.
(** conn.go:95-113 [newRpcConn] *)
Definition rpc_conn (sess : N) (client : bytes) : conn := mkK sess (Some client) false mids_new [] None true false [].

(** cluster.go:287-331 [Master] for a request of connection [c] of node
    [origin], signatures agreeing; [ConnGone] is below. *)
Definition master (E : env) (x : cnode) (origin : nat) (c sess : N) (client : bytes) (q : request) : option cnode :=
  let s := cn_srv x in
  let '(s1, remote) :=
    match live s c with
    | Some _ => (s, cn_remote x)
    | None => (set_conn s c (rpc_conn sess client), aput (cn_remote x) c origin)
    end in
  let s2 := on_conn s1 c (set_client client) in
  match (match q with
         | QSub l id => each (fun s y => sub_one E s c id y) s2 c l
         | QUnsub l id => each (fun s y => unsub_one E s c id y) s2 c l
         | QPub p => option_map fst (pub_msgs E s2 c p (p_msgs p))
         | _ => Some s2
         end) with
  | None => None
  | Some s3 => Some (started true (mkCN s3 (cn_fwd x) remote (cn_told x)))
  end.

Definition is_remote (RC : rings) (n : nat) (client : bytes) : bool :=
  negb (Nat.eqb (rc_ring RC n (id_contract client)) n).

(** cluster.go:376-419 [routeToContract] for a connection with an identifier;
    the flag: the request was taken.  [None]: the other node panics. *)
Definition route (RC : rings) (E : env) (G : net) (n : nat) (c : N) (k : conn) (client : bytes) (q : request)
  : option (net * bool) :=
  let m := rc_ring RC n (id_contract client) in
  let x := G n in
  let G1 := put_node G n (mkCN (cn_srv x) (cn_fwd x) (cn_remote x) ((c, m) :: cn_told x)) in
  if rc_agree RC n m then
    match master E (G1 m) n c (k_sess k) client q with
    | None => None
    | Some y => Some (put_node G1 m y, true)
    end
  else Some (G1, false).

(** conn.go:180-219 [subscribe] by a client of this node *)
Definition sub_net (RC : rings) (E : env) (n : nat) (c : N) (l : list (bytes * N * Z)) (id : N) (G : net) (req : bytes * N * Z)
  : option net :=
  let s := cn_srv (G n) in
  let here := lift G n (sub_one E s c id req) in
  match aget (v_conns s) c with
  | None => Some G
  | Some k =>
      match check_sub k (fst (fst req)), k_client k with
      | VAllowed t, Some cl =>
          match (match st_key t with [] => generate_key (id_contract cl) (st_topic t) AllowNone | ky => Some ky end) with
          | Some ky =>
              if M_Subs.exist (k_subs k) ky && is_remote RC n cl then
                match route RC E G n c k cl (QSub l id) with
                | None => None
                | Some (G1, true) => Some G1
                | Some (G1, false) => lift G1 n (notify_error E (cn_srv (G1 n)) c ErrForbidden id)
                end
              else here
          | None => here
          end
      | _, _ => here
      end
  end.
(** conn.go:222-245 [unsubscribe] *)
Definition unsub_net (RC : rings) (E : env) (n : nat) (c : N) (l : list bytes) (id : N) (G : net) (text : bytes) : option net :=
  let s := cn_srv (G n) in
  match aget (v_conns s) c with
  | None => Some G
  | Some k =>
      match lift G n (unsub_one E s c id text), check_sub k text, k_client k with
      | Some G1, VAllowed _, Some cl =>
          if is_remote RC n cl then
            match route RC E G1 n c k cl (QUnsub l id) with
            | None => None
            | Some (G2, true) => Some G2
            | Some (G2, false) => lift G2 n (notify_error E (cn_srv (G2 n)) c ErrForbidden id)
            end
          else Some G1
      | r, _, _ => r
      end
  end.
Fixpoint each_net {A} (f : net -> A -> option net) (G : net) (n : nat) (c : N) (l : list A) : option net :=
  match l with
  | [] => Some G
  | x :: r => if is_stuck (cn_srv (G n)) c then Some G
              else match f G x with None => None | Some G1 => each_net f G1 n c r end
  end.
Definition ack_net (G : net) (n : nat) (c : N) (pk : packet) : net :=
  put_node G n (set_srv (ack (cn_srv (G n)) c pk) (G n)).

(** hdl_conn.go:82-270 [handler] for a packet of a client *)
Definition handle_net (RC : rings) (E : env) (G : net) (n : nat) (c : N) (q : request) : option net :=
  match q with
  | QSub l id => option_map (fun G1 => ack_net G1 n c (KCtl tSUBSCRIBE fACK id)) (each_net (sub_net RC E n c l id) G n c l)
  | QUnsub l id => option_map (fun G1 => ack_net G1 n c (KCtl tUNSUBSCRIBE fACK id)) (each_net (unsub_net RC E n c l id) G n c l)
  | _ => match lift G n (handle E (cn_srv (G n)) c q) with
         | Some G1 => Some (put_node G1 n (started false (G1 n)))
         | None => None
         end
  end.

(** conn.go:248-313 [publish]: the loop is over and line 306 is reached. *)
Definition publish_end (RC : rings) (E : env) (G : net) (n : nat) (fwd : bool) (c : N) (p : pub) : option net :=
  match aget (v_conns (cn_srv (G n))) c with
  | None => Some G
  | Some k =>
      match k_client k with
      | None => None
      | Some cl =>
          if negb fwd && is_remote RC n cl then option_map fst (route RC E G n c k cl (QPub p)) else Some G
      end
  end.
(** line 286 for a connection that [rpcWriteLoop] has left: [send] is not closed,
    the message stays in it.  (Channels that block are not modelled.) *)
Definition send_gone (x : cnode) (t : task) : option task :=
  match t with
  | TSend c p m id sn todo =>
      match aget (cn_remote x) (s_conn sn), aget (v_conns (cn_srv x)) (s_conn sn) with
      | Some _, Some sub => if negb (k_open sub) && reliable (p_mode p) && reliable (s_mode sn) then Some (TLoop c p m id todo) else None
      | _, _ => None
      end
  | _ => None
  end.
Definition run_net (RC : rings) (E : env) (G : net) (n i : nat) : option net :=
  let x := G n in
  match nth_error (v_tasks (cn_srv x)) i with
  | None => Some G
  | Some t =>
      match send_gone x t, t with
      | Some t', TSend _ p _ _ sn _ =>
          let s := cn_srv x in
          let s1 := match aget (v_conns s) (s_conn sn) with Some sub => persist_out s (k_sess sub) (KPub p) | None => s end in
          Some (put_node G n (set_srv (set_tasks s1 (firstn i (v_tasks s) ++ t' :: skipn (S i) (v_tasks s))) x))
      | _, _ =>
          match step E (cn_srv x) (ERun i) with
          | None => None
          | Some s =>
              let ended := Nat.ltb (length (v_tasks s)) (length (v_tasks (cn_srv x))) in
              let fwd := if ended then firstn i (cn_fwd x) ++ skipn (S i) (cn_fwd x) else cn_fwd x in
              let G1 := put_node G n (mkCN s fwd (cn_remote x) (cn_told x)) in
              match t with
              | TLoop c p _ _ [] => publish_end RC E G1 n (nth i (cn_fwd x) false) c p
              | _ => Some G1
              end
          end
      end
  end.

(** cluster.go:293-297 and 515-521, 543-548: the connection at the other node
    is gone.  Nobody reads [stop] of a connection that is not proxied. *)
Definition gone (x : cnode) (c : N) : cnode :=
  match aget (cn_remote x) c, live (cn_srv x) c with
  | Some _, Some k =>
      let s := cn_srv x in
      let mine := fun sn => match k_client k with
                            | Some id => (s_contract sn =? id_contract id) &&
                                         existsb (fun e => M_Subs.beq (M_Subs.st_id (snd e)) (s_id sn)) (k_subs k)
                            | None => false
                            end in
      set_srv (mkV (v_log s) (aput (v_conns s) c (set_closed k)) (filter (fun sn => negb (mine sn)) (v_subs s)) (v_tasks s) (v_next s) (v_nsub s)) x
  | _, _ => x
  end.
(** cluster.go:422-441 [connGone], called by [close] (conn.go:389-424), informs
    one node of the map.  It is a step of its own after the connection [c] of
    node [n] was closed. *)
Definition conn_gone (G : net) (n : nat) (c : N) (m : nat) : net :=
  let x := G n in
  match live (cn_srv x) c with
  | Some _ => G
  | None =>
      if existsb (fun e => (fst e =? c) && Nat.eqb (snd e) m) (cn_told x) then
        let G1 := put_node G n (mkCN (cn_srv x) (cn_fwd x) (cn_remote x) (adel (cn_told x) c)) in
        put_node G1 m (gone (G1 m) c)
      else G
  end.

(** cluster.go:515-551 [rpcWriteLoop] and 334-349 [Proxy]: one packet of the
    proxied connection [c] of node [n] goes to the socket at its node.  Nobody
    reads [pub]; its sender gives up after a while.  [None]: a proxied
    connection has no socket. *)
Definition set_out (l : list packet) (k : conn) : conn :=
  mkK (k_sess k) (k_client k) (k_insecure k) (k_ids k) (k_subs k) (k_batch k) (k_open k) (k_stuck k) l.
Definition write_net (G : net) (n : nat) (c : N) : option net :=
  let x := G n in
  match aget (cn_remote x) c, live (cn_srv x) c with
  | Some o, Some k =>
      match k_out k with
      | [] => Some G
      | pk :: r =>
          let G1 := put_node G n (set_srv (set_conn (cn_srv x) c (set_out r k)) x) in
          match pk with
          | KPub _ => Some G1
          | KCtl _ _ _ =>
              match live (cn_srv (G1 o)) c with
              | None => Some G1
              | Some k' => match aget (cn_remote (G1 o)) c with
                           | Some _ => None
                           | None => Some (put_node G1 o (set_srv (set_conn (cn_srv (G1 o)) c (add_out pk k')) (G1 o)))
                           end
              end
          end
      end
  | _, _ => Some G
  end.

Inductive cevent :=
| CAccept (n : nat)
| CPacket (n : nat) (c : N) (q : request)
| CRun (n i : nat)
| CBatch (n : nat) (c : N)
| CLost (n : nat) (c : N)
| CGone (n : nat) (c : N) (m : nat)
| CWrite (n : nat) (c : N)
| CRestart (n : nat) (next : N).

Definition c_step (RC : rings) (E : env) (G : net) (ev : cevent) : option net :=
  match ev with
  | CAccept n =>
      (* a proxied connection with this number is not found any more *)
      match step E (cn_srv (G n)) EAccept with
      | None => None
      | Some s => Some (put_node G n (mkCN s (cn_fwd (G n)) (adel (cn_remote (G n)) (v_next s)) (adel (cn_told (G n)) (v_next s))))
      end
  | CPacket n c q =>
      match aget (cn_remote (G n)) c, aget (v_conns (cn_srv (G n))) c with
      | None, Some k => if k_open k && negb (k_stuck k) then handle_net RC E G n c q else Some G
      | _, _ => Some G
      end
  | CRun n i => run_net RC E G n i
  | CBatch n c => lift G n (step E (cn_srv (G n)) (EBatch c))
  | CLost n c => match aget (cn_remote (G n)) c with None => lift G n (step E (cn_srv (G n)) (ELost c)) | Some _ => Some G end
  | CGone n c m => Some (conn_gone G n c m)
  | CWrite n c => write_net G n c
  | CRestart n next =>
      match step E (cn_srv (G n)) (ERestart next) with
      | None => None
      | Some s => Some (put_node G n (mkCN s [] [] []))
      end
  end.
Fixpoint c_run (RC : rings) (E : env) (G : net) (es : list cevent) : option net :=
  match es with
  | [] => Some G
  | ev :: r => match c_step RC E G ev with None => None | Some G1 => c_run RC E G1 r end
  end.
(** What the client of connection [c] of node [n] was sent. *)
Definition c_out (G : net) (n : nat) (c : N) : list packet := out (cn_srv (G n)) c.
