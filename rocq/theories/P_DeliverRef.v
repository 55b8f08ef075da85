(** A publication with a mode above 2 is acknowledged and sent to nobody (C86). *)
From Verif Require Import M_Bytes M_Keys M_MsgIds M_Conn S_Conn S_Deliver P_ConnRef P_DeliverAny.
Open Scope N_scope.

Lemma sent_to_nobody : exists E s c k id p m0 t es s' x,
  parses_small E /\ reached E s /\
  aget (v_conns s) c = Some k /\ k_open k = true /\ k_stuck k = false /\ k_client k = Some id /\
  p_id p <> 0 /\ s_mode x <= 2 /\ p_msgs p = [m0] /\
  on_publish (k_insecure k) (id_contract id) (pm_topic m0) = VAllowed t /\ e_store E (st_topic t) (pm_payload m0) = true /\
  run E s (EPacket c (QPub p) :: es) = Some s' /\ v_tasks s' = [] /\
  s_contract x = id_contract id /\ e_match E (s_topic x) (st_topic t) = true /\
  all_along E s (EPacket c (QPub p) :: es) (fun s1 => of_contract s1 c (id_contract id) /\ In x (v_subs s1) /\ hears s1 (s_conn x)) /\
  In (KCtl tPUBLISH fACK (p_id p)) (out s' c) /\ aget (v_conns s') (s_conn x) = aget (v_conns s) (s_conn x).
Proof.
  exists E0, (after (three 1)), 1. do 2 eexists. exists (pb 5 3 ta 10), (mkPM ta [10]), (mkST [] ta 1 false), (repeat (ERun 0) 4).
  eexists. exists (mkSub 7 ta 1 3 0 (le 8 0)).
  split; [exact E0_parses|]. split; [exists 0, (three 1); vm_compute; reflexivity|].
  split; [vm_compute; reflexivity|]. split; [reflexivity|]. split; [reflexivity|]. split; [reflexivity|].
  split; [discriminate|]. split; [vm_compute; discriminate|]. split; [reflexivity|]. split; [vm_compute; reflexivity|].
  split; [reflexivity|]. split; [vm_compute; reflexivity|]. split; [reflexivity|]. split; [vm_compute; reflexivity|].
  split; [vm_compute; reflexivity|]. split.
  - apply along_all with (f := condb 1 7 (mkSub 7 ta 1 3 0 (le 8 0))); [intros s1 H; exact (condb_ok _ _ _ _ H)|]. vm_compute. reflexivity.
  - split; [vm_compute; tauto|]. vm_compute. reflexivity.
Qed.
