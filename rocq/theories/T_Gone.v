(** Property theorems: what a cluster keeps of a connection that ended (C110). *)
From Verif Require Import M_Bytes M_Keys M_MsgIds M_Conn S_Conn M_Route S_Route P_ConnRef P_RouteRef S_Gone P_GoneRun P_GoneRef.
Open Scope N_scope.

(** C110: when a connection of a cluster has ended and the owner of its contract
    was told, no node has a subscription of it, then and ever after *)
Theorem C110_partial : forall RC E starts o contract es1 es2 es3 G0 G G',
  let c := u32 (v_next (cn_srv (G0 o)) + 1) in
  let es := es1 ++ CAccept o :: es2 ++ CGone o c (rc_ring RC o contract) :: es3 in
  apart starts es -> NoDup (numbers o (starts o) es) -> Forall c_running es -> Forall (c_one_contract o c contract) es2 ->
  c_run RC E (fresh starts) es1 = Some G0 -> c_run RC E G0 (CAccept o :: es2) = Some G -> c_ended G o c ->
  c_run RC E G (CGone o c (rc_ring RC o contract) :: es3) = Some G' -> none_left G' c.
Proof. exact gone_leaves_none. Qed.
Print Assumptions C110_partial.

(** the node of the connection stops: the owner is never told, and messages are
    announced to whoever gets the number *)
Theorem C110_refuted : exists RC E starts es G o c x es' G' id0 id key,
  agreed RC /\ apart starts (es ++ es') /\ c_run RC E (fresh starts) es = Some G /\
  c_ended G o c /\ (forall m G1, c_step RC E G (CGone o c m) = Some G1 -> forall n, cn_srv (G1 n) = cn_srv (G n)) /\
  In x (v_subs (cn_srv (G (rc_ring RC o (s_contract x))))) /\ s_conn x = c /\
  c_run RC E G es' = Some G' /\ connects es o c id0 /\ id_contract id0 = s_contract x /\ In (CPacket o c (QConnect (CAccepted id []) false false key)) es' /\
  id_contract id <> s_contract x /\ (forall l i, ~ In (CPacket o c (QSub l i)) es') /\ In (KCtl tPUBLISH fNOTIFY 5) (c_out G' o c).
Proof. exact stays_after_restart. Qed.
Print Assumptions C110_refuted.

(** Connection 101 of node 1 subscribes twice, so that node 0 has a subscription too; it
    publishes, breaks, node 0 is told, and its goroutine forwards the message after that. *)
Definition es2a : list cevent :=
  [conC 0 1 1 7 false; conC 1 101 2 7 false; subC 0 1 1 1; subC 1 101 1 1; subC 1 101 1 2; pubC 1 101 5 0 [m10]; CRun 1 0; CRun 1 0; CLost 1 101].
Definition es3a : list cevent := repeat (CRun 1 0) 4 ++ repeat (CRun 0 0) 6.
Example C110_case : let es1 := [CAccept 0] in let G0 := afterC es1 in let G := afterC (es1 ++ CAccept 1 :: es2a) in
  let es := es1 ++ CAccept 1 :: es2a ++ CGone 1 101 0 :: es3a in
  apart st0 es /\ NoDup (numbers 1 (st0 1) es) /\ Forall c_running es /\ Forall (c_one_contract 1 101 7) es2a /\
  u32 (v_next (cn_srv (G0 1%nat)) + 1) = 101 /\ c_run RC0 E0 G0 (CAccept 1 :: es2a) = Some G /\
  map (fun n => map s_conn (v_subs (cn_srv (G n)))) [0; 1]%nat = [[101; 1]; []] /\
  exists G1 G', c_step RC0 E0 G (CGone 1 101 0) = Some G1 /\ live (cn_srv (G1 0%nat)) 101 = None /\ c_run RC0 E0 G1 es3a = Some G' /\
    map s_conn (v_subs (cn_srv (G' 0%nat))) = [1] /\ (live (cn_srv (G' 0%nat)) 101 <> None).
Proof.
  split; [apart2|]. split; [vm_compute; repeat constructor; auto|]. split; [repeat constructor|].
  split; [repeat constructor; intros; try discriminate; vm_compute; reflexivity|]. split; [vm_compute; reflexivity|]. split; [vm_compute; reflexivity|].
  split; [vm_compute; reflexivity|]. do 2 eexists. split; [vm_compute; reflexivity|]. split; [vm_compute; reflexivity|].
  split; [vm_compute; reflexivity|]. split; vm_compute; [reflexivity|discriminate].
Qed.
