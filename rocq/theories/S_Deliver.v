(** C86 for all interleavings: what subscribers get while other things happen. *)
From Verif Require Import M_Bytes M_Keys M_MsgIds M_Conn S_Conn.
Open Scope N_scope.

(** Something holds in all states of a run. *)
Definition all_along (E : env) (s : server) (es : list event) (P : server -> Prop) : Prop :=
  forall es1 es2 s1, es = es1 ++ es2 -> run E s es1 = Some s1 -> P s1.
(** A goroutine that publishes a message of [p] for connection [c] *)
Definition publishes (c : N) (p : pub) (t : task) : Prop :=
  match t with TPub c' p' _ _ | TLoop c' p' _ _ _ | TSend c' p' _ _ _ _ => c' = c /\ p' = p end.
(** The connection is there with its client; its identifiers are not stuck (C44). *)
Definition hears (s : server) (c : N) : Prop :=
  exists k, aget (v_conns s) c = Some k /\ k_open k = true /\ k_client k <> None /\ m_hung (k_ids k) = false.
(** The publisher has the contract; it may have left. *)
Definition of_contract (s : server) (c contract : N) : Prop :=
  exists k id, aget (v_conns s) c = Some k /\ k_client k = Some id /\ id_contract id = contract.
Definition no_connect (c : N) (ev : event) : Prop :=
  match ev with EPacket c' (QConnect _ _ _ _) => c' <> c | _ => True end.
(** A message is in the batch of a connection, or was sent with one. *)
Definition held (k : conn) (m : pmsg) : Prop :=
  (exists l, k_batch k = Some l /\ In m l) \/ exists q, In (KPub q) (k_out k) /\ In m (p_msgs q).
(** What subscriber [n] gets of message [m] of publication [p] *)
Definition got (s : server) (p : pub) (m : pmsg) (n : subn) : Prop :=
  exists k, aget (v_conns s) (s_conn n) = Some k /\
    if reliable (p_mode p) && reliable (s_mode n) then In (KCtl tPUBLISH fNOTIFY (p_id p)) (k_out k)
    else if (s_mode n =? 2) || (0 <? s_delay n)%Z then held k m
    else In (KPub (mkPub (p_id p) (s_mode n) [m])) (k_out k).

(** The same, of what the connection was sent behind its first [n] packets *)
Definition got_behind (n : nat) (s : server) (p : pub) (m : pmsg) (x : subn) : Prop :=
  exists k, aget (v_conns s) (s_conn x) = Some k /\
    if reliable (p_mode p) && reliable (s_mode x) then In (KCtl tPUBLISH fNOTIFY (p_id p)) (skipn n (k_out k))
    else if (s_mode x =? 2) || (0 <? s_delay x)%Z then held k m
    else In (KPub (mkPub (p_id p) (s_mode x) [m])) (skipn n (k_out k)).
