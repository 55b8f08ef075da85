(** What clients rely on when the server is a cluster (C92, C93). *)
From Verif Require Import M_Bytes M_Keys M_Conn M_Route.
From Verif Require Import S_Conn.
Open Scope N_scope.

(** A cluster that was just started; [starts n]: the first number of node n. *)
Definition fresh (starts : nat -> N) : net := fun n => cnode_new (starts n).
(** All rings are equal. *)
Definition agreed (RC : rings) : Prop :=
  (forall n m, rc_agree RC n m = true) /\ forall n m contract, rc_ring RC n contract = rc_ring RC m contract.
(** What happens at node [n], as events of a server on its own. *)
Definition here (n : nat) (es : list cevent) : list event :=
  flat_map (fun ev => match ev with
                      | CAccept a => if Nat.eqb a n then [EAccept] else []
                      | CPacket a c q => if Nat.eqb a n then [EPacket c q] else []
                      | CRun a i => if Nat.eqb a n then [ERun i] else []
                      | CBatch a c => if Nat.eqb a n then [EBatch c] else []
                      | CLost a c => if Nat.eqb a n then [ELost c] else []
                      | CRestart a k => if Nat.eqb a n then [ERestart k] else []
                      | CWrite _ _ | CGone _ _ _ => []
                      end) es.
(** Connection [c] of node [n] was accepted under identifier [id]. *)
Definition connects (es : list cevent) (n : nat) (c : N) (id : bytes) : Prop :=
  exists ch ins clean key, In (CPacket n c (QConnect (CAccepted id ch) ins clean key)) es.
(** Every client connects to the node that owns its contract. *)
Definition at_owner (RC : rings) (es : list cevent) : Prop :=
  forall n c id, connects es n c id -> rc_ring RC n (id_contract id) = n.
(** The numbers of the connections that node [n] accepts. *)
Fixpoint numbers (n : nat) (next : N) (es : list cevent) : list N :=
  match es with
  | [] => []
  | CAccept a :: r => if Nat.eqb a n then u32 (next + 1) :: numbers n (u32 (next + 1)) r else numbers n next r
  | CRestart a k :: r => if Nat.eqb a n then numbers n k r else numbers n next r
  | _ :: r => numbers n next r
  end.
(** No two nodes use the same number. *)
Definition apart (starts : nat -> N) (es : list cevent) : Prop :=
  forall n m c, In c (numbers n (starts n) es) -> In c (numbers m (starts m) es) -> n = m.
(** Nothing is left to do. *)
Definition quiet (G : net) : Prop := forall n, v_tasks (cn_srv (G n)) = [].
(** No connection is lost and no node stopped. *)
Definition steady (es : list cevent) : Prop :=
  forall n c k, ~ In (CLost n c) es /\ ~ In (CRestart n k) es.
(** How often a message is in what a client was sent. *)
Definition times (m : pmsg) (l : list packet) : nat :=
  length (filter (fun x => if list_eq_dec N.eq_dec (pm_topic x) (pm_topic m) then
                             if list_eq_dec N.eq_dec (pm_payload x) (pm_payload m) then true else false
                           else false)
                 (flat_map (fun pk => match pk with KPub p => p_msgs p | KCtl _ _ _ => [] end) l)).
(** Messages for this subscriber are collected before they are sent. *)
Definition batched (x : subn) : bool := (s_mode x =? 2) || (0 <? s_delay x)%Z.
(** Its connection, if open, has what is needed to send to it. *)
Definition deliverable (s : server) (x : subn) : Prop :=
  s_mode x <= 2 /\
  forall k, aget (v_conns s) (s_conn x) = Some k -> k_open k = true -> k_client k <> None /\ (batched x = true -> k_batch k <> None).
