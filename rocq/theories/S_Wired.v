(** The server of M_Conn with the packets of M_Proto. *)
From Verif Require Import M_Bytes M_Keys M_Conn M_Wire M_Proto S_Conn.
Open Scope N_scope.

(** The packet of the log that a packet on the wire carries; message TTLs are
    not in M_Conn. *)
Definition carries (k : packet) (p : pack) : Prop :=
  match k, p with
  | KPub q, PPublish u => pu_id u = p_id q /\ pu_mode u = p_mode q /\
      map (fun m => mkPM (pm_top m) (pm_pay m)) (pu_msgs u) = p_msgs q
  | KCtl ty flow id, PControl c => ct_type c = ty /\ ct_flow c = flow /\ ct_id c = id
  | _, _ => False
  end.
(** What the reader makes of a session: the resumption of a session tells only
    publications from other packets (conn.go:326-339). *)
Definition reads_as (k : packet) (p : pack) : Prop :=
  match k with KPub _ => carries k p | KCtl _ _ _ => forall u, p <> PPublish u end.
(** The oracles about encoded packets are those of the code: the four bytes of a
    session (hdl_conn.go:151-152) are read by [read_pack]; a packet without four
    bytes is one whose encoding is that short. *)
Definition wired (E : env) : Prop :=
  (forall n k, e_parse E n = Some k -> exists p rest, read_pack (le 4 n) = RPack p rest /\ reads_as k p) /\
  (forall k, e_head E k = None -> exists p b, carries k p /\ to_binary p = Some b /\ (length b < 4)%nat).
(** [crash_cause] without sessions that are too short *)
Definition crash_cause_wired (E : env) (s : server) (ev : event) : Prop :=
  match ev with
  | EPacket _ (QConnect (CAccepted _ _) _ _ _) => False
  | _ => crash_cause E s ev
  end.
