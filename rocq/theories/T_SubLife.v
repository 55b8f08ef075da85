(** Property theorems: how long a subscription lasts (C97, C98). *)
From Verif Require Import M_Bytes M_Keys M_MsgIds M_Conn S_Conn S_SubLife P_SubLife P_ConnRef P_SubLifeEx.
Open Scope N_scope.

(** C97: a subscription lasts until its own connection ends it *)
Theorem C97_partial : forall E n es1 es2 s s' x,
  run E (server_new n) es1 = Some s -> asked_all (es1 ++ es2) < 2 ^ 64 -> run E s es2 = Some s' ->
  In x (v_subs s) -> Forall (fun ev => ends (s_conn x) ev = false) es2 ->
  In x (v_subs s') /\
  forall i c k id p t payload, nth_error (v_tasks s') i = Some (TPub c p t payload) ->
  aget (v_conns s') c = Some k -> k_client k = Some id -> id_contract id = s_contract x -> e_match E (s_topic x) (st_topic t) = true ->
  exists s1 found, step E s' (ERun i) = Some s1 /\ nth_error (v_tasks s1) i = Some (TLoop c p (mkPM (st_name t) payload) (p_id p) found) /\ In x found.
Proof. exact lasts. Qed.
Print Assumptions C97_partial.

(** C98: when a connection ends, none of its subscriptions remain *)
Theorem C98_partial : forall E n es1 es s0 s' contract,
  run E (server_new n) es1 = Some s0 -> (forall x, In x (v_subs s0) -> s_conn x <> u32 (v_next s0 + 1)) ->
  Forall no_restart es -> Forall (one_contract (u32 (v_next s0 + 1)) contract) es -> accepts_all es < 2 ^ 32 - 1 -> asked_all (es1 ++ es) < 2 ^ 64 ->
  run E s0 (EAccept :: es ++ [ELost (u32 (v_next s0 + 1))]) = Some s' ->
  forall x, In x (v_subs s') -> s_conn x <> u32 (v_next s0 + 1).
Proof. exact lost_leaves_none. Qed.
Print Assumptions C98_partial.

(** a second CONNECT under another contract *)
Theorem C98_contract_refuted : exists E n es s c x,
  run E (server_new n) (EAccept :: es ++ [ELost c]) = Some s /\ c = u32 (n + 1) /\ Forall no_restart es /\ accepts_all es = 0 /\ In x (v_subs s) /\ s_conn x = c.
Proof. exact contract_stays. Qed.
Print Assumptions C98_contract_refuted.

(** a restart: the subscriptions are those of whoever gets the number *)
Theorem C98_restart_refuted : exists E n es s c x s',
  run E (server_new n) es = Some s /\ c = u32 (v_next s + 1) /\ In x (v_subs s) /\ s_conn x = c /\
  run E s [EAccept; con c 2 7 0; ELost c] = Some s' /\ In x (v_subs s') /\
  exists s1 s2 q, run E s [EAccept; con c 2 7 0] = Some s1 /\ out s1 c = [KCtl tCONNECT fACK 0] /\
  run E s1 [EAccept; con 2 3 7 0; send 2 5 0 10; ERun 0; ERun 0; ERun 0] = Some s2 /\ out s2 c = [KCtl tCONNECT fACK 0; KPub q].
Proof. exact restart_stays. Qed.
Print Assumptions C98_restart_refuted.

(** The subscription of connection 3 while 1 and 2 subscribe, unsubscribe, publish and
    break, and after a restart. *)
Definition busy : list event :=
  [sub 1 1; EPacket 1 (QUnsub [ta] 2); sub 1 2; con 1 1 7 0; ELost 1; sub 2 0; send 2 5 1 10; ERun 0; ERun 0; EBatch 3; EPacket 2 (QFlow 2 fRECEIVE 9); ERestart 5].
Example C97_case : let s := after (three 1) in let x := mkSub 7 ta 1 3 0%Z (le 8 0) in
  run E0 (server_new 0) (three 1) = Some s /\ In x (v_subs s) /\ Forall (fun ev => ends (s_conn x) ev = false) busy /\
  exists s', run E0 s busy = Some s' /\ map s_conn (v_subs s') = [3].
Proof.
  split; [vm_compute; reflexivity|]. split; [vm_compute; left; reflexivity|]. split; [repeat constructor|].
  eexists. split; [vm_compute; reflexivity|]. vm_compute. reflexivity.
Qed.
(** Connection 1 subscribes to two topics, twice to one of them, while 2 keeps its own. *)
Example C98_case : let es := [EAccept; con 2 2 7 0; sub 2 1; con 1 1 7 0; EPacket 1 (QSub [(ta, 1, 0%Z); (tb, 0, 0%Z)] 1); sub 1 2] in
  Forall no_restart es /\ Forall (one_contract 1 7) es /\
  exists s s', run E0 (server_new 0) (EAccept :: es) = Some s /\ map s_conn (v_subs s) = [1; 1; 2] /\ step E0 s (ELost 1) = Some s' /\ map s_conn (v_subs s') = [2].
Proof.
  split; [repeat constructor|]. split; [repeat constructor; intros; try discriminate; vm_compute; reflexivity|].
  do 2 eexists. split; [vm_compute; reflexivity|]. split; [vm_compute; reflexivity|]. split; [vm_compute; reflexivity|]. vm_compute. reflexivity.
Qed.
