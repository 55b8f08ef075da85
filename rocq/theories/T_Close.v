(** Property theorems: the end of a connection (C112) and those who send to it (C113). *)
From Verif Require Import M_Close S_Close P_Close.

(** C112: a connection whose client has left is closed *)
(** Once the read loop has returned, whoever else publishes *)
Theorem C112_partial : forall s es s', reached s -> c_reader s = RGone -> fair es -> run s es = Some s' -> ended s'.
Proof. exact closed_when_left. Qed.
Print Assumptions C112_partial.
(** There is one way for a closing to be stuck. *)
Theorem C112_stuck_partial : forall s, reached s -> blocked s -> c_phase s <> CIdle -> c_phase s <> CDone ->
  c_phase s = CWait /\ (exists k, c_reader s = RHand (S k)) /\ c_writer s = false /\ c_buf s = 1.
Proof. exact stuck_only. Qed.
Print Assumptions C112_stuck_partial.
(** What has ended stays so. *)
Theorem C112_ended : forall s es s', reached s -> c_phase s = CDone -> run s es = Some s' -> ended s /\ ended s'.
Proof. exact ended_for_good. Qed.
Print Assumptions C112_ended.
(** One client with three packets is enough, nobody publishes. *)
Theorem C112_refuted : exists es s, Forall own es /\ times (fun ev => match ev with EDisconnect => true | _ => false end) es = 1 /\
  run conn_start es = Some s /\ c_phase s = CWait /\
  forall es', exists s', run s es' = Some s' /\ c_phase s' = CWait /\ c_subs s' = true /\ c_cached s' = true.
Proof. exact never_closed. Qed.
Print Assumptions C112_refuted.

(** The closing waits for the client to close its socket; for a WebSocket or
    gRPC connection there is no deadline (hdl_grpc_web.go:244-252, common/conn.go:176-184). *)
Theorem C112_open_refuted : exists es s, run conn_start es = Some s /\ In EDisconnect es /\ c_phase s = CWait /\
  forall es', Forall (fun ev => ~ of_client ev) es' ->
  exists s', run s es' = Some s' /\ c_phase s' = CWait /\ c_subs s' = true /\ c_cached s' = true.
Proof. exact waits_for_client. Qed.
Print Assumptions C112_open_refuted.

(** C113: who publishes to a connection that ends is neither stopped nor crashes the server *)
Theorem C113_partial : forall s i, reached s -> c_writer s = true -> nth_error (c_pubs s) i = Some PHas ->
  exists s', run s [ETake; EPub i] = Some s' /\ nth_error (c_pubs s') i = Some POver.
Proof. exact sent_on. Qed.
Print Assumptions C113_partial.
Theorem C113_after_partial : forall s i s', reached s -> c_phase s = CDone -> nth_error (c_pubs s) i = Some PFind ->
  step s (EPub i) = Some s' -> nth_error (c_pubs s') i = Some POver.
Proof. exact none_after. Qed.
Print Assumptions C113_after_partial.
(** The loops and the closing never panic. *)
Theorem C113_panic_partial : forall s ev, reached s -> step s ev = None ->
  exists i, ev = EPub i /\ nth_error (c_pubs s) i = Some PHas /\ ended s.
Proof. exact panics. Qed.
Print Assumptions C113_panic_partial.
(** From some point on all who publish to the connection wait for ever. *)
Theorem C113_refuted : exists s, reached s /\ forall es s1, run s es = Some s1 ->
  exists s2, run s1 [EPublish; EPub (length (c_pubs s1))] = Some s2 /\ nth_error (c_pubs s2) (length (c_pubs s1)) = Some PHas /\
  forall es' s3, run s2 es' = Some s3 -> nth_error (c_pubs s3) (length (c_pubs s1)) = Some PHas.
Proof. exact waits_for_ever. Qed.
Print Assumptions C113_refuted.
(** A client that only sends DISCONNECT *)
Theorem C113_crash_refuted : exists es s, run conn_start es = Some s /\ times (fun ev => match ev with EDisconnect => true | _ => false end) es = 1 /\
  (forall k, ~ In (EPacket k) es) /\ exists i, step s (EPub i) = None.
Proof. exact crash. Qed.
Print Assumptions C113_crash_refuted.

(** ** Non-vacuity *)
(** The client is lost while two publish to it. *)
Definition s112 : cst := mkC RGone true CIdle 1 false 1 false true true [POver; PHas; PFind].
Definition es112 : list event :=
  [EPub 2; ETry; EPublish; EClose; ETake; EPub 1; EClose; EExit; EClose; EPub 3; EClose; EClose; EClose].
Example C112_case : reached s112 /\ c_reader s112 = RGone /\ fair es112 /\
  run s112 es112 = Some (mkC RGone false CDone 0 true 1 true false false [POver; POver; PHas; PHas]).
Proof.
  split.
  - exists [EReader; EPacket 1; EReader; EReader; EReader; EPublish; ETake; EPublish; EPublish; EPub 0; EPub 0; EPub 1; ELost].
    vm_compute. reflexivity.
  - split; [reflexivity|]. split; [|vm_compute; reflexivity].
    exists [EPub 2], [EPublish], [ETake; EPub 1; EClose], [EClose; EPub 3; EClose; EClose; EClose].
    split; [reflexivity|]. vm_compute. repeat constructor.
Qed.
Example C112_stuck_case : reached s_jam /\ blocked s_jam /\ c_phase s_jam = CWait.
Proof.
  split; [exists es_jam; exact jam_reached|]. split; [|reflexivity]. intros ev O. destruct ev; try reflexivity; contradiction.
Qed.
Example C113_case : exists s, reached s /\ c_writer s = true /\ nth_error (c_pubs s) 1 = Some PHas /\ c_buf s = 1 /\ c_phase s = CWait.
Proof.
  exists (mkC RGone true CWait 0 true 1 false true true [POver; PHas]). split; [|repeat split].
  exists [EReader; EPublish; EPublish; EPub 0; EPub 0; EPub 1; ELost; ETry; EClose]. vm_compute. reflexivity.
Qed.
Example C113_after_case : exists s, reached s /\ c_phase s = CDone /\ nth_error (c_pubs s) 0 = Some PFind.
Proof.
  exists (mkC RGone false CDone 0 true 0 true false false [PFind]). split; [|split; reflexivity].
  exists [EReader; EPublish; ELost; ETry; EClose; EExit; EClose; EClose; EClose; EClose]. vm_compute. reflexivity.
Qed.
