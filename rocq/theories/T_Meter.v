(** The counters the server shows. *)
From Verif Require Import M_Bytes M_Keys M_MsgIds M_Conn M_Meter S_Conn S_SubLife S_Meter P_Meter P_Meter2 P_ConnRef P_SubLifeEx P_MeterEx.
Open Scope N_scope.

Theorem C115_conns_partial : forall E n es s m,
  mrun E (server_new n, meter_new) es = Some (s, m) -> accepts_all es <= 2 ^ 32 -> asked_all es < 2 ^ 64 -> counts_open s (mt_conns m).
Proof. exact conns_ok. Qed.
Print Assumptions C115_conns_partial.

Theorem C115_partial : forall E n es s m kof,
  (forall t, e_store E t [] = true) -> mrun E (server_new n, meter_new) es = Some (s, m) -> Forall (contracts_stay kof) es ->
  Forall no_restart es -> asked_all es < 2 ^ 64 -> mt_subs m = stored_subs s.
Proof. exact subs_ok. Qed.
Print Assumptions C115_partial.

(** the store does not take a subscription *)
Theorem C115_refuted : exists E n es s m,
  mrun E (server_new n, meter_new) es = Some (s, m) /\ Forall no_restart es /\ Forall (contracts_stay (fun _ => 7)) es /\
  v_subs s = [] /\ mt_subs m = (-1)%Z.
Proof. exact below_zero. Qed.
Print Assumptions C115_refuted.

(** a second CONNECT under another contract *)
Theorem C115_contract_refuted : exists E n es s m,
  mrun E (server_new n, meter_new) es = Some (s, m) /\ (forall t, e_store E t [] = true) /\ Forall no_restart es /\
  stored_subs s = 1%Z /\ mt_subs m = 0%Z.
Proof. exact contract_left. Qed.
Print Assumptions C115_contract_refuted.

(** a restart *)
Theorem C115_restart_refuted : exists E n es s m,
  mrun E (server_new n, meter_new) es = Some (s, m) /\ (forall t, e_store E t [] = true) /\ Forall (contracts_stay (fun _ => 7)) es /\
  stored_subs s = 1%Z /\ mt_subs m = 0%Z.
Proof. exact restart_left. Qed.
Print Assumptions C115_restart_refuted.

(** Connection 1 has topics "a" (twice), "b" and, with key "k", "c" (twice); it unsubscribes
    from the last; connection 2 asks for a message that does not exist and is closed, then
    breaks; 1 breaks. *)
Definition kc : bytes := [107; 47; 99].
Definition unsub : event := EPacket 1 (QUnsub [kc] 2).
Definition counted : list event :=
  [EAccept; EAccept; EAccept; con 1 1 7 0; con 2 2 8 0; EPacket 1 (QSub [(ta, 1, 0%Z); (tb, 0, 0%Z); (kc, 0, 0%Z); (kc, 1, 0%Z)] 1); sub 1 2; sub 2 1].
Definition fewer : list event := [unsub; EPacket 2 (QFlow 2 fRECEIVE 9); ELost 2; con 3 3 7 0; sub 3 1].
Example C115_case :
  option_map snd (mrun E0 (server_new 0, meter_new) counted) = Some (mkMeter 3 4) /\
  option_map snd (mrun E0 (server_new 0, meter_new) (counted ++ fewer)) = Some (mkMeter 2 4) /\
  option_map snd (mrun E0 (server_new 0, meter_new) (counted ++ fewer ++ [unsub])) = Some (mkMeter 2 3) /\
  option_map snd (mrun E0 (server_new 0, meter_new) (counted ++ fewer ++ [unsub; ELost 1])) = Some (mkMeter 1 1) /\
  Forall (contracts_stay (fun c => if c =? 2 then 8 else 7)) (counted ++ fewer ++ [unsub; ELost 1]).
Proof.
  split; [vm_compute; reflexivity|]. split; [vm_compute; reflexivity|]. split; [vm_compute; reflexivity|]. split; [vm_compute; reflexivity|].
  repeat constructor; intros c; cbn; intros; subst; try exact I; vm_compute; reflexivity.
Qed.
