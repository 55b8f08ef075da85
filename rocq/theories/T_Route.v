(** Clusters: requests between nodes. *)
From Coq Require Import Lia ZifyBool ZifyNat ZifyN.
From Verif Require Import M_Bytes M_Keys M_MsgIds M_Conn M_Route S_Conn S_Route P_ConnRef P_RouteRef P_Route P_Forward.
Open Scope N_scope.

(** C92.  If every client connects to the owner of its contract, each node works
    like a server on its own, so that C80-C86 hold for it. *)
Theorem C92_owner_partial : forall RC E, parses_small E -> forall starts es G, at_owner RC es -> c_run RC E (fresh starts) es = Some G ->
  forall n, cn_remote (G n) = [] /\ run E (server_new (starts n)) (here n es) = Some (cn_srv (G n)).
Proof. exact local_run. Qed.
Print Assumptions C92_owner_partial.
(** A publication at another node reaches the subscribers of that node and those
    known to the owner. *)
Theorem C92_forward_partial : forall RC E starts es G n m c k id p m0 t, apart starts es -> c_run RC E (fresh starts) es = Some G ->
  m = rc_ring RC n (id_contract id) -> m <> n -> rc_agree RC n m = true ->
  aget (cn_remote (G n)) c = None -> aget (v_conns (cn_srv (G n))) c = Some k -> k_open k = true -> k_stuck k = false -> k_client k = Some id ->
  p_id p <> 0 -> p_mode p <= 2 -> p_msgs p = [m0] -> on_publish false (id_contract id) (pm_topic m0) = VAllowed t ->
  e_store E (st_topic t) (pm_payload m0) = true ->
  (forall a x, a = n \/ a = m -> In x (v_subs (cn_srv (G a))) -> deliverable (cn_srv (G a)) x) ->
  (forall x, In x (v_subs (cn_srv (G m))) -> s_conn x = c -> batched x = false) ->
  exists j j' G', c_run RC E G (CPacket n c (QPub p) :: repeat (CRun n (length (v_tasks (cn_srv (G n))))) j ++ repeat (CRun m (length (v_tasks (cn_srv (G m))))) j') = Some G' /\
    In (KCtl tPUBLISH fACK (p_id p)) (c_out G' n c) /\
    forall a x, a = n \/ a = m -> In x (v_subs (cn_srv (G a))) -> s_contract x = id_contract id -> e_match E (s_topic x) (st_topic t) = true ->
      listens (cn_srv (G a)) (s_conn x) -> reaches (cn_srv (G' a)) p (mkPM (st_name t) (pm_payload m0)) x.
Proof. exact forwarded_r. Qed.
Print Assumptions C92_forward_partial.
(** But a client that subscribes at another node does not get what is published
    at the owner, although both requests are acknowledged, ... *)
Theorem C92_refuted : exists RC E starts es G n c n' c' id id' topic contract m,
  agreed RC /\ apart starts es /\ steady es /\ c_run RC E (fresh starts) es = Some G /\ quiet G /\
  connects es n c id /\ id_contract id = contract /\ connects es n' c' id' /\ id_contract id' = contract /\
  In (CPacket n' c' (QSub [(topic, 0, 0%Z)] 1)) es /\ In (KCtl tSUBSCRIBE fACK 1) (c_out G n' c') /\
  In (CPacket n c (QPub (mkPub 5 0 [m]))) es /\ pm_topic m = topic /\ In (KCtl tPUBLISH fACK 5) (c_out G n c) /\
  forall q, ~ In (KPub q) (c_out G n' c').
Proof. exact not_delivered. Qed.
Print Assumptions C92_refuted.
(** ... is disconnected when it asks for the message it was told of, if it
    subscribes twice and reliably, ... *)
Theorem C92_reliable_refuted : exists RC E starts es G n c id, agreed RC /\ apart starts es /\ steady es /\ c_run RC E (fresh starts) es = Some G /\
  In (KCtl tPUBLISH fNOTIFY id) (c_out G n c) /\ serves (cn_srv (G n)) c c /\
  forall ty, exists G', c_step RC E G (CPacket n c (QFlow ty fRECEIVE id)) = Some G' /\
    c_out G' n c = c_out G n c /\ ~ serves (cn_srv (G' n)) c c.
Proof. exact not_fetched. Qed.
Print Assumptions C92_reliable_refuted.
(** ... and a publication with several messages arrives several times. *)
Theorem C92_twice_refuted : exists RC E starts es G n c p m,
  agreed RC /\ apart starts es /\ steady es /\ c_run RC E (fresh starts) es = Some G /\ quiet G /\
  (forall a b q, In (CPacket a b (QPub q)) es -> q = p) /\
  (exists l1 a b l2, es = l1 ++ CPacket a b (QPub p) :: l2 /\ forall a' b' q, ~ In (CPacket a' b' (QPub q)) (l1 ++ l2)) /\
  NoDup (p_msgs p) /\ times m (c_out G n c) = 2%nat.
Proof. exact delivered_twice. Qed.
Print Assumptions C92_twice_refuted.
(** Clients that connected without the need of keys do not reach each other either:
    the owner asks for a key, since it was not told of that, and the publication is
    acknowledged all the same. *)
Theorem C92_insecure_refuted : exists RC E starts es G n c n' c' id id' topic m,
  agreed RC /\ apart starts es /\ steady es /\ c_run RC E (fresh starts) es = Some G /\ quiet G /\
  In (CPacket n c (QConnect (CAccepted id []) true false 0)) es /\ In (CPacket n' c' (QConnect (CAccepted id' []) true false 0)) es /\
  id_contract id' = id_contract id /\ rc_ring RC n' (id_contract id) = n' /\
  In (CPacket n' c' (QSub [(topic, 0, 0%Z)] 1)) es /\ In (KCtl tSUBSCRIBE fACK 1) (c_out G n' c') /\
  In (CPacket n c (QPub (mkPub 5 0 [m]))) es /\ pm_topic m = topic /\ In (KCtl tPUBLISH fACK 5) (c_out G n c) /\
  forall q, ~ In (KPub q) (c_out G n' c').
Proof. exact key_missing. Qed.
Print Assumptions C92_insecure_refuted.

(** C93.  If no two nodes use the same connection number, every connection,
    proxied or not, has the identifier that its client connected with, and every
    subscription the contract of the client of its connection. *)
Theorem C93_partial : forall RC E starts es G, apart starts es -> c_run RC E (fresh starts) es = Some G ->
  (forall n c k id, aget (v_conns (cn_srv (G n))) c = Some k -> k_client k = Some id ->
     match aget (cn_remote (G n)) c with None => connects es n c id | Some o => connects es o c id end) /\
  (forall n x, In x (v_subs (cn_srv (G n))) -> exists o id, connects es o (s_conn x) id /\ id_contract id = s_contract x).
Proof. exact who_acts. Qed.
Print Assumptions C93_partial.
(** Otherwise a client gets messages of another contract. *)
Theorem C93_refuted : exists RC E starts es G n c n' c' id id' m,
  agreed RC /\ steady es /\ c_run RC E (fresh starts) es = Some G /\
  connects es n c id /\ (forall x, connects es n c x -> x = id) /\ In m (flat_map (fun pk => match pk with KPub p => p_msgs p | _ => [] end) (c_out G n c)) /\
  connects es n' c' id' /\ (forall x, connects es n' c' x -> x = id') /\ id_contract id' <> id_contract id /\
  (exists i, In (CPacket n' c' (QPub (mkPub i 0 [m]))) es) /\ forall a b q, In (CPacket a b (QPub q)) es -> In m (p_msgs q) -> a = n' /\ b = c'.
Proof. exact taken_over. Qed.
Print Assumptions C93_refuted.

(** C84 for clusters: a subscription for collected messages from another node
    brings the owner down. *)
Theorem C84_cluster_refuted : exists RC E starts es G i, agreed RC /\ apart starts es /\ steady es /\ parses_small E /\
  c_run RC E (fresh starts) es = Some G /\
  Forall (fun ev => forall n c ins cl key, ev <> CPacket n c (QConnect CPanic ins cl key)) es /\
  c_step RC E G (CRun 0 i) = None.
Proof. exact owner_down. Qed.
Print Assumptions C84_cluster_refuted.

(** ** Non-vacuity *)
(** Node 0 owns contract 7 and node 1 contract 8; each has a client that
    publishes to itself. *)
Definition RC2 : rings := mkRC (fun _ contract => if contract =? 7 then 0%nat else 1%nat) (fun _ _ => true).
Definition own2 : list cevent :=
  [CAccept 0; CAccept 1; conC 0 1 1 7 true; conC 1 101 2 8 true; CPacket 0 1 (QSub [(ta, 0, 0%Z)] 1); CPacket 1 101 (QSub [(ta, 0, 0%Z)] 1);
   pubC 0 1 5 0 [mkPM ta [10]]; pubC 1 101 6 0 [mkPM ta [20]]; CRun 0 0; CRun 1 0; CRun 0 0; CRun 1 0; CRun 0 0; CRun 1 0; CRun 0 0; CRun 1 0].
Definition out2 (n : nat) (c : N) : option (list packet) := option_map (fun G => c_out G n c) (c_run RC2 E0 (fresh st0) own2).
Example C92_owner_example : at_owner RC2 own2 /\
  option_map (@rev packet) (out2 0 1) = Some [KPub (mkPub 5 0 [mkPM ta [10]]); KCtl tPUBLISH fACK 5; KCtl tSUBSCRIBE fACK 1; KCtl tCONNECT fACK 0] /\
  option_map (@rev packet) (out2 1 101) = Some [KPub (mkPub 6 0 [mkPM ta [20]]); KCtl tPUBLISH fACK 6; KCtl tSUBSCRIBE fACK 1; KCtl tCONNECT fACK 0].
Proof.
  split; [|split; vm_compute; reflexivity]. intros n c id (ch & ins & cl & key & H). unfold own2, conC, pubC in H. cbn [app In] in H.
  repeat (destruct H as [H|H]; [first [discriminate H | injection H as <- <- <- _ _ _ _; vm_compute; reflexivity]|]). contradiction.
Qed.
(** A subscriber at the owner and a publisher at the other node *)
Definition es92 : list cevent := two ++ [subC 0 1 0 1].
Definition t92 : stopic := match on_publish false 7 open_a with VAllowed t => t | _ => mkST [] [] 0 true end.
Example C92_forward_example : apart st0 es92 /\ c_run RC0 E0 (fresh st0) es92 = Some (afterC es92) /\
  rc_ring RC0 1 (id_contract (cid (ep 2) 7)) <> 1%nat /\ aget (cn_remote (afterC es92 1%nat)) 101 = None /\
  (exists k, aget (v_conns (cn_srv (afterC es92 1%nat))) 101 = Some k /\ k_open k = true /\ k_stuck k = false /\ k_client k = Some (cid (ep 2) 7)) /\
  on_publish false (id_contract (cid (ep 2) 7)) open_a = VAllowed t92 /\ e_store E0 (st_topic t92) [10] = true /\
  (forall a x, a = 1%nat \/ a = 0%nat -> In x (v_subs (cn_srv (afterC es92 a))) -> deliverable (cn_srv (afterC es92 a)) x) /\
  (forall x, In x (v_subs (cn_srv (afterC es92 0%nat))) -> s_conn x = 101 -> batched x = false) /\
  exists x, v_subs (cn_srv (afterC es92 0%nat)) = [x] /\ s_contract x = id_contract (cid (ep 2) 7) /\
    e_match E0 (s_topic x) (st_topic t92) = true /\ listens (cn_srv (afterC es92 0%nat)) (s_conn x).
Proof.
  assert (S0 : v_subs (cn_srv (afterC es92 0%nat)) = [mkSub 7 (st_topic t92) 0 1 0 (le 8 0)]) by (vm_compute; reflexivity).
  assert (S1 : v_subs (cn_srv (afterC es92 1%nat)) = []) by (vm_compute; reflexivity).
  assert (K : exists k, aget (v_conns (cn_srv (afterC es92 0%nat))) 1 = Some k /\ k_open k = true /\ k_client k = Some (cid (ep 1) 7)) by (eexists; split; [vm_compute; reflexivity|split; vm_compute; reflexivity]).
  split; [apart2|]. split; [vm_compute; reflexivity|]. split; [vm_compute; discriminate|]. split; [vm_compute; reflexivity|].
  split; [eexists; split; [vm_compute; reflexivity|split; [vm_compute; reflexivity|split; vm_compute; reflexivity]]|].
  split; [vm_compute; reflexivity|]. split; [vm_compute; reflexivity|]. split.
  { intros a x [->| ->]; rewrite ?S0, ?S1; [intros []|]. intros [<-|[]]. split; [vm_compute; discriminate|]. destruct K as (k & Hk & _ & Hc).
    cbn [s_conn]. intros k' Hk' _. rewrite Hk in Hk'. injection Hk' as <-. split; [congruence|]. vm_compute. discriminate. }
  split; [intros x; rewrite S0; intros [<-|[]]; vm_compute; discriminate|].
  eexists. split; [exact S0|]. split; [vm_compute; reflexivity|]. split; [vm_compute; reflexivity|]. destruct K as (k & Hk & Ho & Hc). exists k, (cid (ep 1) 7). auto.
Qed.
(** Connection 101 of node 1 and its proxy at node 0 *)
Example C93_example : apart st0 esB /\ c_run RC0 E0 (fresh st0) esB = Some (afterC esB) /\
  aget (cn_remote (afterC esB 0%nat)) 101 = Some 1%nat /\
  map (fun n => option_map k_client (aget (v_conns (cn_srv (afterC esB n))) 101)) [0; 1]%nat = [Some (Some (cid (ep 2) 7)); Some (Some (cid (ep 2) 7))].
Proof. split; [apart2|]. split; [vm_compute; reflexivity|]. split; vm_compute; reflexivity. Qed.
(** The subscription that the owner has for it ends when the owner is told that the
    connection is gone. *)
Definition esE : list cevent := two ++ [subC 1 101 1 1; subC 1 101 1 2; CLost 1 101].
Example C93_gone_example : apart st0 esE /\ map s_conn (v_subs (cn_srv (afterC esE 0%nat))) = [101] /\
  exists G, c_run RC0 E0 (fresh st0) (esE ++ [CGone 1 101 0]) = Some G /\ v_subs (cn_srv (G 0%nat)) = [] /\ live (cn_srv (G 0%nat)) 101 = None.
Proof. split; [apart2|]. split; [vm_compute; reflexivity|]. eexists. split; [vm_compute; reflexivity|]. split; vm_compute; reflexivity. Qed.
