(** What is left in a cluster of a connection that ended (C110). *)
From Verif Require Import M_Bytes M_Keys M_Conn M_Route.
From Verif Require Import S_Route.
Open Scope N_scope.

(** The events of a cluster whose nodes keep running. *)
Definition c_running (ev : cevent) : Prop := match ev with CRestart _ _ => False | _ => True end.
(** Connection [c] of node [o] connects, if several times, with the same contract. *)
Definition c_one_contract (o : nat) (c contract : N) (ev : cevent) : Prop :=
  match ev with CPacket n c' (QConnect (CAccepted id _) _ _ _) => n = o -> c' = c -> id_contract id = contract | _ => True end.
(** Connection [c] of node [o] is over. *)
Definition c_ended (G : net) (o : nat) (c : N) : Prop :=
  forall k, aget (v_conns (cn_srv (G o))) c = Some k -> k_open k = false.
(** No node has a subscription of a connection [c]. *)
Definition none_left (G : net) (c : N) : Prop :=
  forall n x, In x (v_subs (cn_srv (G n))) -> s_conn x <> c.
