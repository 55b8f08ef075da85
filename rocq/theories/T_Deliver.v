(** Property theorems: C86 for all interleavings. *)
From Verif Require Import M_Bytes M_Keys M_MsgIds M_Conn S_Conn S_Deliver P_ConnRef P_DeliverAny P_DeliverRef.
Open Scope N_scope.

(** C86: whatever happens while the messages of a publication are delivered *)
Theorem C86_any_partial : forall E s c k id p m0 t es s' x,
  aget (v_conns s) c = Some k -> k_open k = true -> k_stuck k = false -> k_client k = Some id ->
  p_id p <> 0 -> p_mode p <= 2 -> s_mode x <= 2 ->
  Forall (fun m => exists t, on_publish (k_insecure k) (id_contract id) (pm_topic m) = VAllowed t /\ e_store E (st_topic t) (pm_payload m) = true) (p_msgs p) ->
  In m0 (p_msgs p) -> on_publish (k_insecure k) (id_contract id) (pm_topic m0) = VAllowed t ->
  run E s (EPacket c (QPub p) :: es) = Some s' -> (forall u, In u (v_tasks s') -> ~ publishes c p u) ->
  s_contract x = id_contract id -> e_match E (s_topic x) (st_topic t) = true ->
  all_along E s (EPacket c (QPub p) :: es) (fun s1 => of_contract s1 c (id_contract id) /\ In x (v_subs s1) /\ hears s1 (s_conn x)) ->
  Forall (no_connect (s_conn x)) es -> got s' p (mkPM (st_name t) (pm_payload m0)) x.
Proof. exact reached_any. Qed.
Print Assumptions C86_any_partial.

Theorem C86_refuted : exists E s c k id p m0 t es s' x,
  parses_small E /\ reached E s /\
  aget (v_conns s) c = Some k /\ k_open k = true /\ k_stuck k = false /\ k_client k = Some id /\
  p_id p <> 0 /\ s_mode x <= 2 /\ p_msgs p = [m0] /\
  on_publish (k_insecure k) (id_contract id) (pm_topic m0) = VAllowed t /\ e_store E (st_topic t) (pm_payload m0) = true /\
  run E s (EPacket c (QPub p) :: es) = Some s' /\ v_tasks s' = [] /\
  s_contract x = id_contract id /\ e_match E (s_topic x) (st_topic t) = true /\
  all_along E s (EPacket c (QPub p) :: es) (fun s1 => of_contract s1 c (id_contract id) /\ In x (v_subs s1) /\ hears s1 (s_conn x)) /\
  In (KCtl tPUBLISH fACK (p_id p)) (out s' c) /\ aget (v_conns s') (s_conn x) = aget (v_conns s) (s_conn x).
Proof. exact sent_to_nobody. Qed.
Print Assumptions C86_refuted.

(** C87: the second is published when the goroutines of the first are done *)
Theorem C87_partial : forall E s c k id k1 id1 p q m n t u es1 es2 s1 s' x,
  aget (v_conns s) c = Some k -> k_open k = true -> k_stuck k = false -> k_client k = Some id ->
  run E s (EPacket c (QPub p) :: es1) = Some s1 -> run E s1 (EPacket c (QPub q) :: es2) = Some s' ->
  aget (v_conns s1) c = Some k1 -> k_open k1 = true -> k_stuck k1 = false -> k_client k1 = Some id1 -> id_contract id1 = id_contract id ->
  (forall u, In u (v_tasks s1) -> ~ publishes c p u) -> (forall u, In u (v_tasks s') -> ~ publishes c q u) ->
  p_id p <> 0 -> p_id q <> 0 -> p_mode p = 0 -> p_mode q = 0 -> s_mode x = 0 -> (s_delay x <= 0)%Z ->
  Forall (fun m => exists t, on_publish (k_insecure k) (id_contract id) (pm_topic m) = VAllowed t /\ e_store E (st_topic t) (pm_payload m) = true) (p_msgs p) ->
  Forall (fun m => exists t, on_publish (k_insecure k1) (id_contract id1) (pm_topic m) = VAllowed t /\ e_store E (st_topic t) (pm_payload m) = true) (p_msgs q) ->
  In m (p_msgs p) -> on_publish (k_insecure k) (id_contract id) (pm_topic m) = VAllowed t -> e_match E (s_topic x) (st_topic t) = true ->
  In n (p_msgs q) -> on_publish (k_insecure k1) (id_contract id1) (pm_topic n) = VAllowed u -> e_match E (s_topic x) (st_topic u) = true ->
  s_contract x = id_contract id ->
  all_along E s (EPacket c (QPub p) :: es1 ++ EPacket c (QPub q) :: es2)
    (fun s1 => of_contract s1 c (id_contract id) /\ In x (v_subs s1) /\ hears s1 (s_conn x)) ->
  Forall (no_connect (s_conn x)) (es1 ++ EPacket c (QPub q) :: es2) ->
  exists l1 l2 l3, out s' (s_conn x) = l1 ++ KPub (mkPub (p_id p) 0 [mkPM (st_name t) (pm_payload m)]) :: l2 ++
    KPub (mkPub (p_id q) 0 [mkPM (st_name u) (pm_payload n)]) :: l3.
Proof. exact in_order. Qed.
Print Assumptions C87_partial.

(** ** Non-vacuity *)
(** Two messages to two subscribers; another client publishes, one connects,
    and the goroutines take turns. *)
Definition p86 : pub := mkPub 5 1 [mkPM ta [10]; mkPM ta [20]].
Definition x86 : subn := mkSub 7 ta 0 2 0 (le 8 1).
Definition u86 : server := after (three 1 ++ [sub 2 0]).
Definition es86 : list event :=
  [send 2 6 0 30; ERun 1; ERun 0; EAccept; con 4 4 7 0; ERun 1; ERun 1; ERun 0; ERun 1; ERun 1; ERun 2; ERun 1; ERun 1; ERun 1;
   ERun 0; ERun 0; ERun 0; ERun 0].
Example C86_any_case : exists s', run E0 u86 (EPacket 1 (QPub p86) :: es86) = Some s' /\
  (forall u, In u (v_tasks s') -> ~ publishes 1 p86 u) /\ v_tasks s' <> [] /\
  all_along E0 u86 (EPacket 1 (QPub p86) :: es86) (fun s1 => of_contract s1 1 7 /\ In x86 (v_subs s1) /\ hears s1 (s_conn x86)) /\
  Forall (no_connect (s_conn x86)) es86 /\ on_publish true 7 ta = VAllowed (mkST [] ta 1 false) /\
  got s' p86 (mkPM ta [10]) x86 /\ got s' p86 (mkPM ta [20]) x86.
Proof.
  eexists. split; [vm_compute; reflexivity|]. split; [vm_compute; intros u H; intuition (subst u; intuition discriminate)|].
  split; [discriminate|]. split; [|split; [|split; [vm_compute; reflexivity|]]].
  - apply along_all with (f := condb 1 7 x86); [intros s1 H; exact (condb_ok _ _ _ _ H)|]. vm_compute. reflexivity.
  - repeat constructor; discriminate.
  - split; (eexists; split; [vm_compute; reflexivity|]; vm_compute; tauto).
Qed.

(** C87: a message is published while another client publishes, then a second one. *)
Definition p87 : pub := pb 5 0 ta 10.
Definition q87 : pub := pb 6 0 ta 20.
Definition e87a : list event := [send 2 7 0 30; ERun 0; ERun 0; ERun 0; ERun 0; ERun 1; ERun 0; ERun 0].
Definition e87b : list event := [ERun 1; ERun 1; ERun 0; ERun 1; ERun 1; ERun 1; ERun 1].
Example C87_case : exists s1 s', run E0 u86 (EPacket 1 (QPub p87) :: e87a) = Some s1 /\ run E0 s1 (EPacket 1 (QPub q87) :: e87b) = Some s' /\
  (forall u, In u (v_tasks s1) -> ~ publishes 1 p87 u) /\ v_tasks s1 <> [] /\ (forall u, In u (v_tasks s') -> ~ publishes 1 q87 u) /\
  all_along E0 u86 (EPacket 1 (QPub p87) :: e87a ++ EPacket 1 (QPub q87) :: e87b)
    (fun s1 => of_contract s1 1 7 /\ In x86 (v_subs s1) /\ hears s1 (s_conn x86)) /\
  Forall (no_connect (s_conn x86)) (e87a ++ EPacket 1 (QPub q87) :: e87b) /\ s_mode x86 = 0 /\ s_delay x86 = 0%Z.
Proof.
  do 2 eexists. split; [vm_compute; reflexivity|]. split; [vm_compute; reflexivity|].
  split; [vm_compute; intros u H; intuition (subst u; intuition discriminate)|]. split; [discriminate|].
  split; [vm_compute; intros u H; intuition (subst u; intuition discriminate)|].
  split; [apply along_all with (f := condb 1 7 x86); [intros s1 H; exact (condb_ok _ _ _ _ H)|]; vm_compute; reflexivity|].
  split; [repeat constructor|]. split; reflexivity.
Qed.
