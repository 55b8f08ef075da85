(** Runs of a cluster that break what clients rely on. *)
From Coq Require Import Lia ZifyBool ZifyNat ZifyN.
From Verif Require Import M_Bytes M_Keys M_MsgIds M_Conn M_Route S_Conn S_Route P_ConnRef.
Open Scope N_scope.

(** Two nodes; node 0 owns all contracts. *)
Definition RC0 : rings := mkRC (fun _ _ => O) (fun _ _ => true).
Lemma RC0_agreed : agreed RC0.
Proof. split; reflexivity. Qed.
Definition st0 (n : nat) : N := match n with O => 0 | _ => 100 end.
Definition conC (n : nat) (c e contract : N) (ins : bool) : cevent :=
  CPacket n c (QConnect (CAccepted (cid (ep e) contract) []) ins false 0).
Definition pubC (n : nat) (c id mode : N) (l : list pmsg) : cevent := CPacket n c (QPub (mkPub id mode l)).
Definition subC (n : nat) (c mode id : N) : cevent := CPacket n c (QSub [(open_a, mode, 0%Z)] id).
(** a publisher at node 0 and a subscriber at node 1 *)
Definition two : list cevent := [CAccept 0; CAccept 1; conC 0 1 1 7 false; conC 1 101 2 7 false].
Definition getG (o : option net) : net := match o with Some G => G | None => fresh st0 end.
Definition afterC (es : list cevent) : net := getG (c_run RC0 E0 (fresh st0) es).
Definition m10 : pmsg := mkPM open_a [10].
Definition m20 : pmsg := mkPM open_a [20].
Definition esA : list cevent := two ++ [subC 1 101 0 1; pubC 0 1 5 0 [m10]; CRun 0 0; CRun 0 0].
Definition esB : list cevent :=
  two ++ [subC 1 101 1 1; subC 1 101 1 2; pubC 0 1 5 1 [m10]; CRun 0 0; CRun 0 0; CRun 0 0; CRun 0 0; CWrite 0 101].
Definition esC : list cevent :=
  two ++ [subC 0 1 0 1; pubC 1 101 5 0 [m10; m20]; CRun 1 0; CRun 1 0; CRun 1 0; CRun 1 0] ++ repeat (CRun 0 0) 16.
Definition esD : list cevent :=
  [CAccept 0; CAccept 0; CAccept 1; conC 0 1 1 7 true; conC 0 2 2 8 true; conC 1 1 3 8 true;
   pubC 1 1 5 0 [mkPM tb [1]]; CRun 1 0; CRun 1 0;
   CPacket 0 1 (QSub [(ta, 0, 0%Z)] 1); pubC 0 2 6 0 [mkPM ta [42]]] ++ repeat (CRun 0 0) 8.
Definition stz (n : nat) : N := 0.
Definition esP : list cevent :=
  two ++ [subC 1 101 2 1; subC 1 101 2 2; pubC 0 1 5 0 [m10]; CRun 0 0; CRun 0 0].

Lemma two_apart : forall es, numbers 0 0 es = [1] -> numbers 1 100 es = [101] -> (forall n, (2 <= n)%nat -> numbers n 100 es = []) -> apart st0 es.
Proof.
  intros es H0 H1 H2 n m c. destruct n as [|[|n]], m as [|[|m]]; cbn [st0]; rewrite ?H0, ?H1, ?(H2 (S (S n))), ?(H2 (S (S m))) by lia; cbn [In]; intuition (subst; try reflexivity; try discriminate; try contradiction).
Qed.
Ltac apart2 := apply two_apart; [vm_compute; reflexivity|vm_compute; reflexivity|intros [|[|n]] Hn; [lia|lia|vm_compute; reflexivity]].
Ltac steady2 := intros n c k; cbn; intuition discriminate.
Lemma quiet2 : forall es G, c_run RC0 E0 (fresh st0) es = Some G -> v_tasks (cn_srv (G 0%nat)) = [] -> v_tasks (cn_srv (G 1%nat)) = [] ->
  (forall n, v_tasks (cn_srv (G (S (S n)))) = []) -> quiet G.
Proof. intros es G _ H0 H1 H2 [|[|n]]; auto. Qed.

Lemma not_delivered : exists RC E starts es G n c n' c' id id' topic contract m,
  agreed RC /\ apart starts es /\ steady es /\ c_run RC E (fresh starts) es = Some G /\ quiet G /\
  connects es n c id /\ id_contract id = contract /\ connects es n' c' id' /\ id_contract id' = contract /\
  In (CPacket n' c' (QSub [(topic, 0, 0%Z)] 1)) es /\ In (KCtl tSUBSCRIBE fACK 1) (c_out G n' c') /\
  In (CPacket n c (QPub (mkPub 5 0 [m]))) es /\ pm_topic m = topic /\ In (KCtl tPUBLISH fACK 5) (c_out G n c) /\
  forall q, ~ In (KPub q) (c_out G n' c').
Proof.
  exists RC0, E0, st0, esA, (afterC esA), 0%nat, 1, 1%nat, 101, (cid (ep 1) 7), (cid (ep 2) 7), open_a, 7, m10.
  split; [exact RC0_agreed|]. split; [apart2|]. split; [steady2|]. split; [vm_compute; reflexivity|].
  split; [intros [|[|n]]; vm_compute; reflexivity|].
  split; [exists [], false, false, 0%Z; cbn; tauto|]. split; [vm_compute; reflexivity|].
  split; [exists [], false, false, 0%Z; cbn; tauto|]. split; [vm_compute; reflexivity|].
  split; [cbn; tauto|]. split; [vm_compute; auto|]. split; [cbn; tauto|]. split; [reflexivity|].
  split; [vm_compute; auto|]. intros q.
  assert (X : c_out (afterC esA) 1 101 = [KCtl 1 1 0; KCtl 4 1 1]) by (vm_compute; reflexivity). rewrite X. cbn [In]. intuition discriminate.
Qed.
(** both clients may do without keys, the one at node 1 publishes *)
Definition esI : list cevent :=
  [CAccept 0; CAccept 1; conC 0 1 1 7 true; conC 1 101 2 7 true; CPacket 0 1 (QSub [(ta, 0, 0%Z)] 1); pubC 1 101 5 0 [mkPM ta [10]];
   CRun 1 0; CRun 1 0; CRun 0 0; CRun 0 0; CRun 0 0].
Lemma key_missing : exists RC E starts es G n c n' c' id id' topic m,
  agreed RC /\ apart starts es /\ steady es /\ c_run RC E (fresh starts) es = Some G /\ quiet G /\
  In (CPacket n c (QConnect (CAccepted id []) true false 0)) es /\ In (CPacket n' c' (QConnect (CAccepted id' []) true false 0)) es /\
  id_contract id' = id_contract id /\ rc_ring RC n' (id_contract id) = n' /\
  In (CPacket n' c' (QSub [(topic, 0, 0%Z)] 1)) es /\ In (KCtl tSUBSCRIBE fACK 1) (c_out G n' c') /\
  In (CPacket n c (QPub (mkPub 5 0 [m]))) es /\ pm_topic m = topic /\ In (KCtl tPUBLISH fACK 5) (c_out G n c) /\
  forall q, ~ In (KPub q) (c_out G n' c').
Proof.
  exists RC0, E0, st0, esI, (afterC esI), 1%nat, 101, 0%nat, 1, (cid (ep 2) 7), (cid (ep 1) 7), ta, (mkPM ta [10]).
  split; [exact RC0_agreed|]. split; [apart2|]. split; [steady2|]. split; [vm_compute; reflexivity|].
  split; [intros [|[|n]]; vm_compute; reflexivity|].
  split; [cbn; tauto|]. split; [cbn; tauto|]. split; [vm_compute; reflexivity|]. split; [vm_compute; reflexivity|].
  split; [cbn; tauto|]. split; [vm_compute; auto|]. split; [cbn; tauto|]. split; [reflexivity|].
  split; [vm_compute; auto|]. intros q.
  assert (X : c_out (afterC esI) 0 1 = [KCtl 1 1 0; KCtl 4 1 1]) by (vm_compute; reflexivity). rewrite X. cbn [In]. intuition discriminate.
Qed.
Lemma not_fetched : exists RC E starts es G n c id, agreed RC /\ apart starts es /\ steady es /\ c_run RC E (fresh starts) es = Some G /\
  In (KCtl tPUBLISH fNOTIFY id) (c_out G n c) /\ serves (cn_srv (G n)) c c /\
  forall ty, exists G', c_step RC E G (CPacket n c (QFlow ty fRECEIVE id)) = Some G' /\
    c_out G' n c = c_out G n c /\ ~ serves (cn_srv (G' n)) c c.
Proof.
  exists RC0, E0, st0, esB, (afterC esB), 1%nat, 101, 5.
  split; [exact RC0_agreed|]. split; [apart2|]. split; [steady2|]. split; [vm_compute; reflexivity|].
  split; [vm_compute; auto 6|]. split; [eexists; split; [vm_compute; reflexivity|]; repeat split|].
  intro ty. eexists. split; [vm_compute; reflexivity|]. split; [vm_compute; reflexivity|].
  intros (k & Hk & Ho & _). vm_compute in Hk. injection Hk as <-. discriminate Ho.
Qed.
Lemma delivered_twice : exists RC E starts es G n c p m,
  agreed RC /\ apart starts es /\ steady es /\ c_run RC E (fresh starts) es = Some G /\ quiet G /\
  (forall a b q, In (CPacket a b (QPub q)) es -> q = p) /\
  (exists l1 a b l2, es = l1 ++ CPacket a b (QPub p) :: l2 /\ forall a' b' q, ~ In (CPacket a' b' (QPub q)) (l1 ++ l2)) /\
  NoDup (p_msgs p) /\ times m (c_out G n c) = 2%nat.
Proof.
  exists RC0, E0, st0, esC, (afterC esC), 0%nat, 1, (mkPub 5 0 [m10; m20]), (mkPM ta [10]).
  split; [exact RC0_agreed|]. split; [apart2|]. split; [steady2|]. split; [vm_compute; reflexivity|].
  split; [intros [|[|n]]; vm_compute; reflexivity|]. split.
  { intros a b q H. unfold esC, two, conC, subC, pubC in H. cbn [app In repeat] in H.
    repeat (destruct H as [H|H]; [first [discriminate H | injection H as _ _ <-; reflexivity]|]). contradiction. }
  split.
  { exists (two ++ [subC 0 1 0 1]), 1%nat, 101, (([CRun 1 0; CRun 1 0; CRun 1 0; CRun 1 0] ++ repeat (CRun 0 0) 16)).
    split; [reflexivity|]. intros a b q. cbn. intuition discriminate. }
  split; [repeat constructor; cbn; intuition discriminate|]. vm_compute. reflexivity.
Qed.
Lemma taken_over : exists RC E starts es G n c n' c' id id' m,
  agreed RC /\ steady es /\ c_run RC E (fresh starts) es = Some G /\
  connects es n c id /\ (forall x, connects es n c x -> x = id) /\ In m (flat_map (fun pk => match pk with KPub p => p_msgs p | _ => [] end) (c_out G n c)) /\
  connects es n' c' id' /\ (forall x, connects es n' c' x -> x = id') /\ id_contract id' <> id_contract id /\
  (exists i, In (CPacket n' c' (QPub (mkPub i 0 [m]))) es) /\ forall a b q, In (CPacket a b (QPub q)) es -> In m (p_msgs q) -> a = n' /\ b = c'.
Proof.
  exists RC0, E0, stz, esD, (getG (c_run RC0 E0 (fresh stz) esD)), 0%nat, 1, 0%nat, 2, (cid (ep 1) 7), (cid (ep 2) 8), (mkPM ta [42]).
  split; [exact RC0_agreed|]. split; [steady2|]. split; [vm_compute; reflexivity|].
  assert (U : forall n c x, connects esD n c x -> (n, c, x) = (0%nat, 1, cid (ep 1) 7) \/ (n, c, x) = (0%nat, 2, cid (ep 2) 8) \/ (n, c, x) = (1%nat, 1, cid (ep 3) 8)).
  { intros n c x (ch & ins & cl & key & H). unfold esD, conC, pubC in H. cbn [app In repeat] in H.
    repeat (destruct H as [H|H]; [first [discriminate H | injection H as <- <- <- _ _ _ _; auto]|]). contradiction. }
  split; [exists [], true, false, 0%Z; cbn; tauto|].
  split. { intros x Hx. destruct (U _ _ _ Hx) as [H|[H|H]]; congruence. }
  split; [vm_compute; auto|]. split; [exists [], true, false, 0%Z; cbn; tauto|].
  split. { intros x Hx. destruct (U _ _ _ Hx) as [H|[H|H]]; congruence. }
  split; [vm_compute; discriminate|]. split; [exists 6; cbn; tauto|].
  intros a b q H. unfold esD, conC, pubC in H. cbn [app In repeat] in H.
  repeat (destruct H as [H|H]; [first [discriminate H | injection H as <- <- <-; cbn; intuition discriminate || (intros [E|[]]; first [discriminate E|auto])]|]). contradiction.
Qed.
Lemma owner_down : exists RC E starts es G i, agreed RC /\ apart starts es /\ steady es /\ parses_small E /\
  c_run RC E (fresh starts) es = Some G /\
  Forall (fun ev => forall n c ins cl key, ev <> CPacket n c (QConnect CPanic ins cl key)) es /\
  c_step RC E G (CRun 0 i) = None.
Proof.
  exists RC0, E0, st0, esP, (afterC esP), 0%nat.
  split; [exact RC0_agreed|]. split; [apart2|]. split; [steady2|]. split; [exact E0_parses|]. split; [vm_compute; reflexivity|].
  split; [repeat constructor; discriminate|]. vm_compute. reflexivity.
Qed.
