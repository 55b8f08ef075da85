(** What clients rely on from the connections of the server (C80-C86). *)
From Verif Require Import M_Bytes M_Keys M_MsgIds M_Conn.
Open Scope N_scope.

(** Numbers of connections and sessions are uint32. *)
Definition wf (s : server) : Prop :=
  forall c k, aget (v_conns s) c = Some k -> c < 2 ^ 32 /\ k_sess k < 2 ^ 32.

(** The message identifiers a connection has handed out so far. *)
Definition assigned (s : server) (c : N) : list N :=
  match aget (v_conns s) c with
  | Some k => map (fun e => Z.to_N (fst e mod 2 ^ 16)) (m_index (k_ids k))
  | None => []
  end.

(** ** C80, C83: message [id] of session [sess] is left alone *)
(** The goroutine works on another publication, or on [p] for subscribers that
    all want reliable delivery. *)
Definition wants_reliable (n : subn) : Prop := s_mode n = 1 \/ s_mode n = 2.
Definition task_apart (p : pub) (t : task) : Prop :=
  match t with
  | TPub _ q _ _ => p_id q <> 0 /\ p_id q <> p_id p
  | TLoop _ q _ i todo =>
      i <> 0 /\ i = p_id q /\ (p_id q <> p_id p \/ q = p /\ (p_mode p = 1 \/ p_mode p = 2) /\ Forall wants_reliable todo)
  | TSend _ q _ i n todo =>
      i <> 0 /\ i = p_id q /\ (p_id q <> p_id p \/ q = p /\ (p_mode p = 1 \/ p_mode p = 2) /\ Forall wants_reliable (n :: todo))
  end.
(** The event does not reuse the identifier, does not report its receipt and
    does not connect to the session in a way that clears it. *)
Definition event_apart (E : env) (sess id : N) (s : server) (ev : event) : Prop :=
  match ev with
  | EPacket c (QPub q) => p_id q <> 0 /\ p_id q <> id
  | EPacket c (QFlow _ flow i) =>
      flow = fRECEIPT -> i = id -> forall k, aget (v_conns s) c = Some k -> k_sess k <> sess
  | EPacket c (QConnect (CAccepted who _) _ clean key) =>
      forall old, sess_get E (v_log s) (sess_key (session_key who key)) = Some (Some old) -> old = sess ->
      clean = false /\ N.testbit sess 4 = false
  | _ => True
  end.
Fixpoint run_apart (E : env) (sess id : N) (s : server) (es : list event) : Prop :=
  match es with
  | [] => True
  | ev :: r =>
      event_apart E sess id s ev /\
      match step E s ev with
      | Some s1 => ~ In id (assigned s1 sess) /\ run_apart E sess id s1 r
      | None => False
      end
  end.
(** No goroutine and no event brings a publication [id] again. *)
Definition task_other (id : N) (t : task) : Prop :=
  match t with
  | TPub _ q _ _ => p_id q <> 0 /\ p_id q <> id
  | TLoop _ q _ i _ | TSend _ q _ i _ _ => i <> 0 /\ i = p_id q /\ p_id q <> id
  end.
Definition event_other (id : N) (ev : event) : Prop :=
  match ev with EPacket c (QPub q) => p_id q <> 0 /\ p_id q <> id | _ => True end.
Fixpoint run_other (E : env) (sess id : N) (s : server) (es : list event) : Prop :=
  match es with
  | [] => True
  | ev :: r =>
      event_other id ev /\
      match step E s ev with
      | Some s1 => ~ In id (assigned s1 sess) /\ run_other E sess id s1 r
      | None => False
      end
  end.
(** The four bytes of a session are too few for a message. *)
Definition parses_small (E : env) : Prop := forall n p, e_parse E n = Some (KPub p) -> p_id p = 0 /\ p_msgs p = [].
Definition reached (E : env) (s : server) : Prop := exists n es, run E (server_new n) es = Some s.

(** Goroutine [i] is about to deliver [p] to a subscriber, both reliably. *)
Definition delivering (s : server) (i : nat) (p : pub) (c sess : N) : Prop :=
  exists c0 m n todo k,
    nth_error (v_tasks s) i = Some (TSend c0 p m (p_id p) n todo) /\
    (p_mode p = 1 \/ p_mode p = 2) /\ wants_reliable n /\ Forall wants_reliable todo /\ s_conn n = c /\
    aget (v_conns s) c = Some k /\ k_open k = true /\ k_sess k = sess.
(** The connection is there, reads packets and belongs to session [sess]. *)
Definition serves (s : server) (c sess : N) : Prop :=
  exists k, aget (v_conns s) c = Some k /\ k_open k = true /\ k_stuck k = false /\ k_sess k = sess.

(** ** C81: where a message comes from *)
(** Connection [c] was accepted under identifier [id]. *)
Definition accepted (es : list event) (c : N) (id : bytes) (insecure : bool) : Prop :=
  exists ch clean key, In (EPacket c (QConnect (CAccepted id ch) insecure clean key)) es.
Definition subscribed (es : list event) (c contract : N) (topic : bytes) : Prop :=
  exists id ins l i text mode delay t,
    accepted es c id ins /\ id_contract id = contract /\
    In (EPacket c (QSub l i)) es /\ In (text, mode, delay) l /\
    on_subscribe ins contract text = VAllowed t /\ st_topic t = topic.
(** Connection [c] published [p] with message [m] on topic [t]. *)
Definition published (es : list event) (c : N) (p : pub) (m : pmsg) (t : stopic) : Prop :=
  exists id ins,
    accepted es c id ins /\ In (EPacket c (QPub p)) es /\ In m (p_msgs p) /\
    on_publish ins (id_contract id) (pm_topic m) = VAllowed t.
(** A publication with a message for a subscription of [c] under a contract of
    the publisher. *)
Definition for_conn (E : env) (es : list event) (c : N) (p : pub) (m : pmsg) (t : stopic) : Prop :=
  exists c0 id ins topic, published es c0 p m t /\ accepted es c0 id ins /\
    subscribed es c (id_contract id) topic /\ e_match E topic (st_topic t) = true.
Definition from_server (m : pmsg) : Prop := exists r, pm_topic m = [117; 110; 105; 116; 100; 98; 47] ++ r.
Definition relayed (es : list event) (c : N) (m : pmsg) : Prop :=
  exists l i text ms, In (EPacket c (QRelay l i)) es /\ In (text, ms) l /\ In (pm_payload m) ms.
(** A message for connection [c]: a notice of the server, an answer to a relay
    request, or a published message with topic and payload as published. *)
Definition good_msg (E : env) (es : list event) (c : N) (m : pmsg) : Prop :=
  from_server m \/ relayed es c m \/
  exists p m0 t, for_conn E es c p m0 t /\ m = mkPM (st_name t) (pm_payload m0).
Definition asked (es : list event) (c id : N) : Prop := exists ty, In (EPacket c (QFlow ty fRECEIVE id)) es.
(** A publication that concerns connection [c] *)
Definition concerns (E : env) (es : list event) (c : N) (q : pub) : Prop :=
  Forall (good_msg E es c) (p_msgs q) \/ exists m t, for_conn E es c q m t.
(** What [c] is sent: messages for it, or, after it asked for that identifier,
    a publication that concerns some connection. *)
Definition good_pub (E : env) (es : list event) (c : N) (q : pub) : Prop :=
  Forall (good_msg E es c) (p_msgs q) \/ asked es c (p_id q) /\ exists c', concerns E es c' q.

(** ** C82: the messages of a session that wait for their receipt *)
Definition waiting (s : server) (sess id : N) (p : pub) : Prop :=
  aget (v_log s) (log_key id sess) = Some (LPkt (KPub p)).
Definition orders (E : env) : Prop := forall l x, In x (e_order E l) <-> In x l.

(** ** C84: the ways to bring the server down *)
Definition unreadable (text : bytes) : Prop := parse_skey text = None.
Definition connected_as (s : server) (c : N) : Prop :=
  exists k id, aget (v_conns s) c = Some k /\ k_client k = Some id.
Definition crash_cause (E : env) (s : server) (ev : event) : Prop :=
  match ev with
  | EPacket c (QConnect CPanic _ _ _) => True
  | EPacket c (QConnect (CAccepted id _) _ _ key) =>
      sess_get E (v_log s) (sess_key (session_key id key)) = Some None
  | EPacket c (QSub l _) => ~ connected_as s c \/ exists t m d, In (t, m, d) l /\ unreadable t
  | EPacket c (QUnsub l _) => ~ connected_as s c \/ exists t, In t l /\ unreadable t
  | EPacket c (QRelay l _) => ~ connected_as s c \/ exists t ms, In (t, ms) l /\ unreadable t
  | EPacket c (QPub p) => ~ connected_as s c \/ exists m, In m (p_msgs p) /\ unreadable (pm_topic m)
  | ERun i =>
      (exists c p t pl k, nth_error (v_tasks s) i = Some (TPub c p t pl) /\
         aget (v_conns s) c = Some k /\ k_client k = None) \/
      (exists c0 p m id n todo k, nth_error (v_tasks s) i = Some (TSend c0 p m id n todo) /\
         aget (v_conns s) (s_conn n) = Some k /\ (k_open k = false \/ k_client k = None))
  | _ => False
  end.

(** ** C85: whose session it is *)
(** Connection [c] presented session key [z]. *)
Definition presented (es : list event) (c : N) (z : Z) : Prop :=
  exists id ch ins clean key,
    In (EPacket c (QConnect (CAccepted id ch) ins clean key)) es /\ session_key id key = z.
Definition near (es : list event) (a b : N) : Prop := a = b \/ exists z, presented es a z /\ presented es b z.
(** Session keys are epochs of identifiers made before 2087 (epochs count down
    from 2^32; as int32 they are negative); message identifiers are uint16. *)
Definition plain_event (ev : event) : Prop :=
  match ev with
  | EPacket _ (QConnect (CAccepted id _) _ _ key) => (session_key id key < 0)%Z /\ 2 ^ 31 <= u32 (id_epoch id)
  | EPacket _ (QPub p) => p_id p < 2 ^ 16
  | EPacket _ (QFlow _ _ id) => id < 2 ^ 16
  | _ => True
  end.
(** Every connection presents one key. *)
Definition calm (es : list event) : Prop :=
  Forall plain_event es /\ forall c z z', presented es c z -> presented es c z' -> z = z'.
Definition own_pub (E : env) (es : list event) (c : N) (q : pub) : Prop :=
  Forall (good_msg E es c) (p_msgs q) \/
  asked es c (p_id q) /\ exists c', concerns E es c' q /\ near es c' c.

(** ** C86: what a subscriber gets from a publication with one message *)
Definition reaches (s : server) (p : pub) (m : pmsg) (n : subn) : Prop :=
  if reliable (p_mode p) && reliable (s_mode n) then In (KCtl tPUBLISH fNOTIFY (p_id p)) (out s (s_conn n))
  else if (s_mode n =? 2) || (0 <? s_delay n)%Z then
    exists k l, aget (v_conns s) (s_conn n) = Some k /\ k_batch k = Some l /\ In m l
  else In (KPub (mkPub (p_id p) (s_mode n) [m])) (out s (s_conn n)).
Definition listens (s : server) (c : N) : Prop :=
  exists k id, aget (v_conns s) c = Some k /\ k_open k = true /\ k_client k = Some id.

(** ** For the runs that break the claims *)
(** No flow control and no CONNECT *)
Definition no_receipt (ev : event) : Prop :=
  match ev with EPacket _ (QFlow _ _ _) | EPacket _ (QConnect _ _ _ _) => False | _ => True end.
Definition asks_clean (ev : event) : Prop := match ev with EPacket _ (QConnect _ _ clean _) => clean = true | _ => False end.
Definition reports (ev : event) : Prop := match ev with EPacket _ (QFlow _ flow _) => flow = fRECEIPT | _ => False end.
