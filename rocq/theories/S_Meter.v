(** What the counters of a server should say. *)
From Verif Require Import M_Bytes M_Keys M_Conn M_Meter S_SubLife.
Open Scope N_scope.

(** The connections that are open, and how many subscriptions are stored. *)
Definition is_open (s : server) (c : N) : bool := match aget (v_conns s) c with Some k => k_open k | None => false end.
Definition counts_open (s : server) (n : Z) : Prop :=
  exists l, NoDup l /\ (forall c, In c l <-> is_open s c = true) /\ n = Z.of_nat (length l).
Definition stored_subs (s : server) : Z := Z.of_nat (length (v_subs s)).
(** Each connection connects, if several times, with the same contract. *)
Definition contracts_stay (kof : N -> N) (ev : event) : Prop := forall c, one_contract c (kof c) ev.
