(** Runs for the life of subscriptions. *)
From Verif Require Import M_Bytes M_Keys M_MsgIds M_Conn S_Conn S_SubLife P_ConnRef.
Open Scope N_scope.

(** The connection changes its contract and breaks. *)
Definition two : list event := [con 1 1 7 0; sub 1 1; con 1 1 8 0].
Lemma contract_stays : exists E n es s c x,
  run E (server_new n) (EAccept :: es ++ [ELost c]) = Some s /\ c = u32 (n + 1) /\ Forall no_restart es /\ accepts_all es = 0 /\ In x (v_subs s) /\ s_conn x = c.
Proof.
  exists E0, 0, two, (get (run E0 (server_new 0) (EAccept :: two ++ [ELost 1]))), 1, (mkSub 7 ta 1 1 0%Z (le 8 0)).
  split; [vm_compute; reflexivity|]. split; [reflexivity|]. split; [repeat constructor|]. split; [reflexivity|]. split; [|reflexivity].
  vm_compute. left. reflexivity.
Qed.
(** A restart in between. *)
Definition died : list event := [EAccept; con 1 1 7 0; sub 1 1; ERestart 0].
Lemma restart_stays : exists E n es s c x s',
  run E (server_new n) es = Some s /\ c = u32 (v_next s + 1) /\ In x (v_subs s) /\ s_conn x = c /\
  run E s [EAccept; con c 2 7 0; ELost c] = Some s' /\ In x (v_subs s') /\
  (* between, what is sent to the old subscription goes to the new connection *)
  exists s1 s2 q, run E s [EAccept; con c 2 7 0] = Some s1 /\ out s1 c = [KCtl tCONNECT fACK 0] /\
  run E s1 [EAccept; con 2 3 7 0; send 2 5 0 10; ERun 0; ERun 0; ERun 0] = Some s2 /\ out s2 c = [KCtl tCONNECT fACK 0; KPub q].
Proof.
  exists E0, 0, died, (get (run E0 (server_new 0) died)), 1, (mkSub 7 ta 1 1 0%Z (le 8 0)),
    (get (run E0 (get (run E0 (server_new 0) died)) [EAccept; con 1 2 7 0; ELost 1])).
  split; [vm_compute; reflexivity|]. split; [vm_compute; reflexivity|]. split; [vm_compute; left; reflexivity|]. split; [reflexivity|].
  split; [vm_compute; reflexivity|]. split; [vm_compute; left; reflexivity|].
  do 3 eexists. split; [vm_compute; reflexivity|]. split; [vm_compute; reflexivity|]. split; [vm_compute; reflexivity|]. vm_compute. reflexivity.
Qed.
