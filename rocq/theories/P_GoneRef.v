(** A cluster in which a node stops: its connections are not forgotten by the others. *)
From Coq Require Import Lia ZifyBool ZifyNat ZifyN.
From Verif Require Import M_Bytes M_Keys M_MsgIds M_Conn S_Conn M_Route S_Route P_ConnRef P_RouteRef S_Gone.
Open Scope N_scope.

(** Connection 101 of node 1 subscribes at the owner; node 1 stops and starts again. *)
Definition esR : list cevent := two ++ [subC 1 101 1 1; subC 1 101 1 2; CRestart 1 100].
(** A client of another contract connects there; a message of contract 7 is published. *)
Definition esN : list cevent :=
  [CAccept 1; conC 1 101 3 8 false; pubC 0 1 5 1 [m10]; CRun 0 0; CRun 0 0; CRun 0 0; CRun 0 0; CWrite 0 101].
Lemma untold : forall RC E (G : net) o c m G1, cn_told (G o) = [] -> c_step RC E G (CGone o c m) = Some G1 -> forall n, cn_srv (G1 n) = cn_srv (G n).
Proof.
  intros RC E G o c m G1 T H n. unfold c_step, conn_gone in H. rewrite T in H. cbn [existsb] in H.
  destruct (live (cn_srv (G o)) c); injection H as <-; reflexivity.
Qed.
Lemma stays_after_restart : exists RC E starts es G o c x es' G' id0 id key,
  agreed RC /\ apart starts (es ++ es') /\ c_run RC E (fresh starts) es = Some G /\
  c_ended G o c /\ (forall m G1, c_step RC E G (CGone o c m) = Some G1 -> forall n, cn_srv (G1 n) = cn_srv (G n)) /\
  In x (v_subs (cn_srv (G (rc_ring RC o (s_contract x))))) /\ s_conn x = c /\
  c_run RC E G es' = Some G' /\ connects es o c id0 /\ id_contract id0 = s_contract x /\ In (CPacket o c (QConnect (CAccepted id []) false false key)) es' /\
  id_contract id <> s_contract x /\ (forall l i, ~ In (CPacket o c (QSub l i)) es') /\ In (KCtl tPUBLISH fNOTIFY 5) (c_out G' o c).
Proof.
  exists RC0, E0, st0, esR, (afterC esR), 1%nat, 101.
  assert (X : exists x, v_subs (cn_srv (afterC esR 0%nat)) = [x] /\ s_conn x = 101 /\ s_contract x = 7) by (eexists; split; [vm_compute; reflexivity|]; split; reflexivity).
  destruct X as (x & Xs & Xc & Xk). exists x, esN, (getG (c_run RC0 E0 (afterC esR) esN)), (cid (ep 2) 7), (cid (ep 3) 8), 0%Z.
  split; [exact RC0_agreed|]. split.
  { assert (H0 : numbers 0 0 (esR ++ esN) = [1]) by (vm_compute; reflexivity). assert (H1 : numbers 1 100 (esR ++ esN) = [101; 101]) by (vm_compute; reflexivity).
    assert (H2 : forall n, numbers (S (S n)) 100 (esR ++ esN) = []) by (intro n; vm_compute; reflexivity).
    intros n m c. destruct n as [|[|n]], m as [|[|m]]; cbn [st0]; rewrite ?H0, ?H1, ?H2; cbn [In]; intuition (subst; try reflexivity; try discriminate; try contradiction). }
  split; [vm_compute; reflexivity|].
  assert (C : v_conns (cn_srv (afterC esR 1%nat)) = []) by (vm_compute; reflexivity).
  assert (T : cn_told (afterC esR 1%nat) = []) by (vm_compute; reflexivity).
  split; [intros k; rewrite C; discriminate|]. split.
  { intros m G1 H. exact (untold _ _ _ _ _ _ _ T H). }
  split; [change (In x (v_subs (cn_srv (afterC esR 0%nat)))); rewrite Xs; now left|]. split; [exact Xc|]. split; [vm_compute; reflexivity|].
  split; [exists [], false, false, 0%Z; unfold esR, two; cbn [app]; do 3 right; left; reflexivity|]. split; [rewrite Xk; vm_compute; reflexivity|].
  split; [unfold esN; right; left; reflexivity|]. split; [rewrite Xk; vm_compute; discriminate|].
  split; [intros l i; unfold esN, conC, pubC; cbn [In]; intuition discriminate|].
  assert (Y : c_out (getG (c_run RC0 E0 (afterC esR) esN)) 1 101 = [KCtl tCONNECT fACK 0; KCtl tPUBLISH fNOTIFY 5]) by (vm_compute; reflexivity).
  rewrite Y. right. left. reflexivity.
Qed.
