(** Specification of the failover of a cluster. *)
From Verif Require Import M_Bytes M_Ring M_Failover.
Open Scope nat_scope.

(** Only node [l] sends pings. *)
Definition one_leader (l : nat) (es : list fevent) : Prop := forall n silent, In (FPings n silent) es -> n = l.
(** Node [v] is not started again. *)
Definition keeps_running (v : nat) (es : list fevent) : Prop := ~ In (FStart v) es.
Definition no_start (es : list fevent) : Prop := forall n, ~ In (FStart n) es.
(** The pings that node [v] takes speak of the ring with signature [sg]. *)
Definition same_ring (v : nat) (sg : bytes) (es : list fevent) : Prop :=
  forall p, In (FPing p) es -> g_to p = v -> g_sig p = sg.
(** The digest tells apart the rings over subsets of the nodes. *)
Definition no_clash (R : renv) (nodes : list nat) : Prop := forall a b, incl a nodes -> incl b nodes ->
  signature R a = signature R b -> r_keys (ring_of R a) = r_keys (ring_of R b).
(** No process is stopped and every call is answered. *)
Definition all_well (es : list fevent) : Prop :=
  forall e, In e es -> match e with
                       | FStop _ => False
                       | FPings _ silent => silent = []
                       | FForward _ _ answered => answered = true
                       | _ => True
                       end.
(** The processes that are stopped from outside. *)
Definition stops (es : list fevent) : list nat :=
  flat_map (fun e => match e with FStop n => [n] | _ => [] end) es.
