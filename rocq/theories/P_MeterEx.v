(** Runs after which the counters of the server are wrong. *)
From Verif Require Import M_Bytes M_Keys M_MsgIds M_Conn M_Meter S_Conn S_SubLife S_Meter P_ConnRef P_SubLifeEx.
Open Scope N_scope.

(** The store does not take the subscription. *)
Definition E_full : env :=
  mkEnv (e_match E0) (fun _ _ => false) (e_order E0) (e_head E0) (e_parse E0) (e_error E0) (e_reply E0) (e_nokeys E0).
Definition refused : list event := [EAccept; con 1 1 7 0; sub 1 1; ELost 1].
Definition mget (o : option (server * meter)) : server * meter := match o with Some x => x | None => (server_new 0, meter_new) end.
Lemma below_zero : exists E n es s m, mrun E (server_new n, meter_new) es = Some (s, m) /\ Forall no_restart es /\ Forall (contracts_stay (fun _ => 7)) es /\
  v_subs s = [] /\ mt_subs m = (-1)%Z.
Proof.
  exists E_full, 0, refused, (fst (mget (mrun E_full (server_new 0, meter_new) refused))), (mkMeter 0 (-1)).
  split; [vm_compute; reflexivity|]. split; [repeat constructor|]. split; [|split; vm_compute; reflexivity].
  repeat constructor; intros c; cbn; auto.
Qed.
(** The connection changes its contract and breaks. *)
Definition changed : list event := EAccept :: two ++ [ELost 1].
Lemma contract_left : exists E n es s m, mrun E (server_new n, meter_new) es = Some (s, m) /\ (forall t, e_store E t [] = true) /\ Forall no_restart es /\
  stored_subs s = 1%Z /\ mt_subs m = 0%Z.
Proof.
  exists E0, 0, changed, (fst (mget (mrun E0 (server_new 0, meter_new) changed))), (mkMeter 0 0).
  split; [vm_compute; reflexivity|]. split; [reflexivity|]. split; [repeat constructor|]. split; vm_compute; reflexivity.
Qed.
(** A restart: the stored subscriptions stay. *)
Lemma restart_left : exists E n es s m, mrun E (server_new n, meter_new) es = Some (s, m) /\ (forall t, e_store E t [] = true) /\ Forall (contracts_stay (fun _ => 7)) es /\
  stored_subs s = 1%Z /\ mt_subs m = 0%Z.
Proof.
  exists E0, 0, died, (fst (mget (mrun E0 (server_new 0, meter_new) died))), (mkMeter 0 0).
  split; [vm_compute; reflexivity|]. split; [reflexivity|]. split; [|split; vm_compute; reflexivity]. repeat constructor; intros c; cbn; auto.
Qed.
