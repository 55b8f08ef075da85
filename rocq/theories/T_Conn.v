(** Property theorems: connections, sessions and deliveries of the server (C80-C87). *)
From Verif Require Import M_Bytes M_Keys M_MsgIds M_Conn S_Conn P_Conn P_Pending P_Origin P_Forget P_Deliver P_ConnRef.
Open Scope N_scope.

(** C80: a message announced to a subscriber can be fetched until its receipt is reported *)
Theorem C80_partial : forall E s i p c sess s1, reached E s -> 0 < p_id p < 2 ^ 16 ->
  delivering s i p c sess -> Forall (task_apart p) (v_tasks s) -> step E s (ERun i) = Some s1 ->
  out s1 c = out s c ++ [KCtl tPUBLISH fNOTIFY (p_id p)] /\
  forall es s2, run_apart E sess (p_id p) s1 es -> run E s1 es = Some s2 ->
  waiting s2 sess (p_id p) p /\
  forall c' ty, serves s2 c' sess ->
  exists s3, step E s2 (EPacket c' (QFlow ty fRECEIVE (p_id p))) = Some s3 /\ out s3 c' = out s2 c' ++ [KPub p].
Proof. exact delivered_r. Qed.
Print Assumptions C80_partial.

(** two publishers use the same identifier *)
Theorem C80_overwritten_refuted : exists E s i p c sess s1 es s2 q,
  parses_small E /\ reached E s /\ 0 < p_id p < 2 ^ 16 /\ delivering s i p c sess /\
  step E s (ERun i) = Some s1 /\ run E s1 es = Some s2 /\ Forall no_receipt es /\ serves s2 c sess /\ q <> p /\
  forall ty, exists s3, step E s2 (EPacket c (QFlow ty fRECEIVE (p_id p))) = Some s3 /\ out s3 c = out s2 c ++ [KPub q].
Proof. exact overwritten. Qed.
Print Assumptions C80_overwritten_refuted.

(** the announced number is not the one the message is stored under *)
Theorem C80_zero_refuted : exists E s i p c0 m id n todo c sess s1,
  parses_small E /\ reached E s /\ nth_error (v_tasks s) i = Some (TSend c0 p m id n todo) /\ p_mode p = 1 /\ wants_reliable n /\
  s_conn n = c /\ serves s c sess /\ step E s (ERun i) = Some s1 /\ out s1 c = out s c ++ [KCtl tPUBLISH fNOTIFY id] /\
  forall ty, exists s2, step E s1 (EPacket c (QFlow ty fRECEIVE id)) = Some s2 /\ out s2 c = out s1 c /\ ~ serves s2 c sess.
Proof. exact number_zero. Qed.
Print Assumptions C80_zero_refuted.

(** C81: what a connection is sent was meant for a subscription *)
Theorem C81_partial : forall E n es s c q, parses_small E -> run E (server_new n) es = Some s -> In (KPub q) (out s c) ->
  good_pub E es c q.
Proof. exact origin_r. Qed.
Print Assumptions C81_partial.

(** the other messages of a packet come along, with the security keys of their topics *)
Theorem C81_refuted : exists E n es s c q m t contract,
  parses_small E /\ run E (server_new n) es = Some s /\ In (KPub q) (out s c) /\ In m (p_msgs q) /\
  on_publish false contract (pm_topic m) = VAllowed t /\
  (exists id, accepted es c id false /\ id_contract id = contract) /\
  forall contract' topic, subscribed es c contract' topic -> e_match E topic (st_topic t) = false.
Proof. exact other_topics. Qed.
Print Assumptions C81_refuted.

(** C82: a client that comes back to its session is told of all messages that wait *)
Theorem C82_partial : forall E s c who ch ins key sess s', orders E -> reached E s ->
  (exists k, aget (v_conns s) c = Some k /\ k_open k = true /\ k_stuck k = false /\ m_hung (k_ids k) = false) ->
  sess_get E (v_log s) (sess_key (session_key who key)) = Some (Some sess) -> N.testbit sess 4 = false ->
  step E s (EPacket c (QConnect (CAccepted who ch) ins false key)) = Some s' ->
  serves s' c sess /\
  exists new, out s' c = out s c ++ new /\
  forall id p, 0 < id < 2 ^ 16 -> p_id p = id -> waiting s sess id p ->
    In (KCtl tPUBLISH fNOTIFY id) new /\ waiting s' sess id p.
Proof. exact reconnected_r. Qed.
Print Assumptions C82_partial.

(** sessions with bit 4 *)
Theorem C82_bit_refuted : exists E n es s c who ch ins key sess id p s',
  parses_small E /\ orders E /\ run E (server_new n) es = Some s /\ Forall (fun ev => ~ asks_clean ev /\ ~ reports ev) es /\
  waiting s sess id p /\ 0 < id < 2 ^ 16 /\ presented es sess (session_key who key) /\
  step E s (EPacket c (QConnect (CAccepted who ch) ins false key)) = Some s' /\
  serves s' c sess /\ ~ In (KCtl tPUBLISH fNOTIFY id) (out s' c) /\ ~ waiting s' sess id p.
Proof. exact session_bit. Qed.
Print Assumptions C82_bit_refuted.

(** the second time the session is not found *)
Theorem C82_second_refuted : exists E n es s c who ch ins key sess id p s',
  parses_small E /\ orders E /\ run E (server_new n) es = Some s /\ Forall (fun ev => ~ asks_clean ev /\ ~ reports ev) es /\
  waiting s sess id p /\ 0 < id < 2 ^ 16 /\ presented es sess (session_key who key) /\ N.testbit sess 4 = false /\
  step E s (EPacket c (QConnect (CAccepted who ch) ins false key)) = Some s' /\
  ~ serves s' c sess /\ ~ In (KCtl tPUBLISH fNOTIFY id) (out s' c).
Proof. exact second_time. Qed.
Print Assumptions C82_second_refuted.

(** a session opened under a session key is not found by the identifier *)
Theorem C82_identifier_refuted : exists E n es s c who ch ins sess id p s' key,
  parses_small E /\ orders E /\ run E (server_new n) es = Some s /\ Forall (fun ev => ~ asks_clean ev /\ ~ reports ev) es /\
  waiting s sess id p /\ 0 < id < 2 ^ 16 /\ N.testbit sess 4 = false /\
  In (EPacket sess (QConnect (CAccepted who ch) ins false key)) es /\
  step E s (EPacket c (QConnect (CAccepted who ch) ins false 0)) = Some s' /\
  ~ serves s' c sess /\ ~ In (KCtl tPUBLISH fNOTIFY id) (out s' c).
Proof. exact by_identifier. Qed.
Print Assumptions C82_identifier_refuted.

(** C83: a message whose receipt was reported is gone *)
Theorem C83_partial : forall E s c sess id ty s1 es s2, parses_small E -> reached E s -> 0 < id < 2 ^ 16 ->
  connected_as s c -> serves s c sess -> Forall (task_other id) (v_tasks s) ->
  step E s (EPacket c (QFlow ty fRECEIPT id)) = Some s1 -> run_other E sess id s1 es -> run E s1 es = Some s2 ->
  (forall p, ~ waiting s2 sess id p) /\
  forall c' who ch ins clean key s3,
    sess_get E (v_log s2) (sess_key (session_key who key)) = Some (Some sess) ->
    step E s2 (EPacket c' (QConnect (CAccepted who ch) ins clean key)) = Some s3 ->
    exists new, out s3 c' = out s2 c' ++ new /\ ~ In (KCtl tPUBLISH fNOTIFY id) new.
Proof. exact forgotten. Qed.
Print Assumptions C83_partial.

(** messages sent at once are announced after a reconnect *)
Theorem C83_refuted : exists E n es s c q es' s' c',
  parses_small E /\ orders E /\ run E (server_new n) es = Some s /\ In (KPub q) (out s c) /\ p_mode q = 0 /\
  run E s es' = Some s' /\ Forall (fun ev => forall a p, ev <> EPacket a (QPub p)) es' /\
  In (KCtl tPUBLISH fNOTIFY (p_id q)) (out s' c').
Proof. exact express_again. Qed.
Print Assumptions C83_refuted.

(** C84: all the ways to bring the server down *)
Theorem C84_partial : forall E s ev, parses_small E -> reached E s -> step E s ev = None -> crash_cause E s ev.
Proof. exact crash_r. Qed.
Print Assumptions C84_partial.

(** one packet of a client without identifier *)
Theorem C84_first_refuted : exists E n c p, parses_small E /\ run E (server_new n) [EAccept; EPacket c (QPub p)] = None.
Proof. exact first_packet. Qed.
Print Assumptions C84_first_refuted.

(** a subscriber that disconnects at the wrong time *)
Theorem C84_closed_refuted : exists E n es s i c, parses_small E /\ run E (server_new n) es = Some s /\
  Forall (fun ev => forall a ins cl key, ev <> EPacket a (QConnect CPanic ins cl key)) es /\
  run E s [ELost c; ERun i] = None.
Proof. exact closed_channel. Qed.
Print Assumptions C84_closed_refuted.

(** C85: sessions are not shared between session keys *)
Theorem C85_partial : forall E n es s c q, parses_small E -> calm es -> run E (server_new n) es = Some s ->
  In (KPub q) (out s c) -> own_pub E es c q.
Proof. exact own_session_r. Qed.
Print Assumptions C85_partial.

(** a session key is all it takes *)
Theorem C85_key_refuted : exists E n es s c q id, parses_small E /\ run E (server_new n) es = Some s /\
  In (KPub q) (out s c) /\ (exists m, In m (p_msgs q) /\ ~ from_server m /\ ~ relayed es c m) /\
  accepted es c id true /\ (forall contract topic, ~ subscribed es c contract topic) /\
  forall c0 id0 ins0, In (EPacket c0 (QPub q)) es -> accepted es c0 id0 ins0 -> id_contract id0 <> id_contract id.
Proof. exact foreign_session. Qed.
Print Assumptions C85_key_refuted.

(** two clients whose identifiers are of the same second *)
Theorem C85_second_refuted : exists E n es s c q id, parses_small E /\ run E (server_new n) es = Some s /\
  In (KPub q) (out s c) /\ (exists m, In m (p_msgs q) /\ ~ from_server m /\ ~ relayed es c m) /\
  accepted es c id true /\ (forall contract topic, ~ subscribed es c contract topic) /\
  (forall a who ch ins cl key, In (EPacket a (QConnect (CAccepted who ch) ins cl key)) es -> key = 0%Z) /\
  forall c0 id0 ins0, In (EPacket c0 (QPub q)) es -> accepted es c0 id0 ins0 -> id_contract id0 <> id_contract id.
Proof. exact same_second. Qed.
Print Assumptions C85_second_refuted.

(** C86: a publication reaches all subscribers *)
Theorem C86_partial : forall E s c k id p m0 t, parses_small E -> reached E s ->
  aget (v_conns s) c = Some k -> k_open k = true -> k_stuck k = false -> k_client k = Some id ->
  p_id p <> 0 -> p_mode p <= 2 -> p_msgs p = [m0] -> on_publish (k_insecure k) (id_contract id) (pm_topic m0) = VAllowed t ->
  e_store E (st_topic t) (pm_payload m0) = true ->
  (forall x kx, In x (v_subs s) -> aget (v_conns s) (s_conn x) = Some kx -> k_open kx = true -> k_client kx <> None) ->
  (forall x, In x (v_subs s) -> s_mode x <= 2) ->
  exists j s', run E s (EPacket c (QPub p) :: repeat (ERun (length (v_tasks s))) (S j)) = Some s' /\
    In (KCtl tPUBLISH fACK (p_id p)) (out s' c) /\
    forall x, In x (v_subs s) -> s_contract x = id_contract id -> e_match E (s_topic x) (st_topic t) = true ->
      listens s (s_conn x) -> reaches s' p (mkPM (st_name t) (pm_payload m0)) x.
Proof. exact reached_all_r. Qed.
Print Assumptions C86_partial.

(** C87: two publications of one connection overtake each other *)
Theorem C87_refuted : exists E n es c c' p q rest s l,
  parses_small E /\ run E (server_new n) (es ++ EPacket c (QPub p) :: EPacket c (QPub q) :: rest) = Some s /\ p <> q /\
  (forall a r, In (EPacket a (QPub r)) (es ++ rest) -> False) /\
  out s c' = l ++ [KPub q; KPub p].
Proof. exact out_of_order. Qed.
Print Assumptions C87_refuted.

(** ** Non-vacuity *)
(** C80: between the announcement and the request, another publisher publishes
    to the same subscriber, and the subscriber reconnects to its session. *)
Definition s80_1 : server := get (step E0 s80 (ERun 0)).
Definition es80 : list event :=
  [send 2 6 1 20; ERun 1; ERun 1; ERun 1; ELost 3; EAccept; con 4 3 7 0].
Example C80_example : reached E0 s80 /\ delivering s80 0 (pb 5 1 ta 10) 3 3 /\
  Forall (task_apart (pb 5 1 ta 10)) (v_tasks s80) /\ step E0 s80 (ERun 0) = Some s80_1 /\
  run_apart E0 3 5 s80_1 es80 /\ exists s2, run E0 s80_1 es80 = Some s2 /\ serves s2 4 3 /\
  In (KCtl tPUBLISH fNOTIFY 5) (out s2 4) /\ In (KCtl tPUBLISH fNOTIFY 6) (out s2 4).
Proof.
  split; [exists 0, (three 1 ++ [send 1 5 1 10; ERun 0; ERun 0]); vm_compute; reflexivity|].
  split.
  { unfold delivering. do 5 eexists. split; [vm_compute; reflexivity|]. split; [left; reflexivity|]. split; [left; reflexivity|].
    split; [constructor|]. split; [reflexivity|]. split; [vm_compute; reflexivity|]. split; reflexivity. }
  split; [vm_compute; constructor; [|constructor]; split; [discriminate|]; split; [reflexivity|]; right; split; [reflexivity|];
    split; [left; reflexivity|]; constructor; [left; reflexivity|constructor]|].
  split; [vm_compute; reflexivity|]. split.
  - vm_compute. intuition (try discriminate).
  - eexists. split; [vm_compute; reflexivity|]. split; [eexists; split; [vm_compute; reflexivity|]; repeat split|].
    vm_compute. tauto.
Qed.
(** C81, C85: the subscriber of [s80] fetches the message. *)
Definition es81x : list event := three 1 ++ [send 1 5 1 10; ERun 0; ERun 0; ERun 0; EPacket 3 (QFlow 2 fRECEIVE 5)].
Example C81_example : exists s, run E0 (server_new 0) es81x = Some s /\ In (KPub (pb 5 1 ta 10)) (out s 3).
Proof. eexists. split; [vm_compute; reflexivity|]. vm_compute. tauto. Qed.
Example C85_example : calm es81x.
Proof.
  split; [repeat constructor; vm_compute; try reflexivity; discriminate|].
  assert (P : forall c z, presented es81x c z -> z = if c =? 1 then session_key (cid (ep 1) 7) 0 else if c =? 2 then session_key (cid (ep 2) 7) 0 else session_key (cid (ep 3) 7) 0).
  { intros c z (id & ch & ins & clean & key & Hin & <-). unfold es81x, three in Hin. cbn [app In] in Hin.
    repeat destruct Hin as [Hin|Hin]; try discriminate Hin; [| | |contradiction]; unfold con in Hin; injection Hin as <- <- _ _ _ <-; reflexivity. }
  intros c z z' H G. rewrite (P _ _ H), (P _ _ G). reflexivity.
Qed.
(** C82: message 5 waits, the client comes back. *)
Definition s82x : server := after (three 1 ++ [send 1 5 1 10; ERun 0; ERun 0; ERun 0; ELost 3; EAccept]).
Example C82_example : reached E0 s82x /\
  (exists k, aget (v_conns s82x) 4 = Some k /\ k_open k = true /\ k_stuck k = false /\ m_hung (k_ids k) = false) /\
  sess_get E0 (v_log s82x) (sess_key (session_key (cid (ep 3) 7) 0)) = Some (Some 3) /\ N.testbit 3 4 = false /\
  waiting s82x 3 5 (pb 5 1 ta 10).
Proof.
  split; [exists 0, (three 1 ++ [send 1 5 1 10; ERun 0; ERun 0; ERun 0; ELost 3; EAccept]); vm_compute; reflexivity|]. split; [eexists; split; [vm_compute; reflexivity|]; repeat split|].
  split; [vm_compute; reflexivity|]. split; vm_compute; reflexivity.
Qed.
(** C83: message 5 is fetched and its receipt reported; then message 6 comes. *)
Definition s83x : server := after es81x.
Definition es83x : list event := [send 1 6 1 20; ERun 0; ERun 0; ERun 0; ELost 3; EAccept].
Example C83_example : reached E0 s83x /\ connected_as s83x 3 /\ serves s83x 3 3 /\
  exists s1 s2, step E0 s83x (ERun 0) = Some s1 /\ Forall (task_other 5) (v_tasks s1) /\
  step E0 s1 (EPacket 3 (QFlow 2 fRECEIPT 5)) = Some s2 /\ run_other E0 3 5 s2 es83x /\
  exists s3, run E0 s2 es83x = Some s3 /\
  sess_get E0 (v_log s3) (sess_key (session_key (cid (ep 3) 7) 0)) = Some (Some 3) /\ waiting s3 3 6 (pb 6 1 ta 20).
Proof.
  split; [exists 0, es81x; vm_compute; reflexivity|]. split; [do 2 eexists; split; vm_compute; reflexivity|].
  split; [eexists; split; [vm_compute; reflexivity|]; repeat split|].
  do 2 eexists. split; [vm_compute; reflexivity|]. split; [vm_compute; constructor|]. split; [vm_compute; reflexivity|].
  split; [vm_compute; intuition discriminate|]. eexists. split; [vm_compute; reflexivity|]. split; vm_compute; reflexivity.
Qed.
(** C86: a publisher and two subscribers, one reliable and one not. *)
Definition s86 : server := after (three 1 ++ [sub 2 0]).
Example C86_example : reached E0 s86 /\
  (forall x kx, In x (v_subs s86) -> aget (v_conns s86) (s_conn x) = Some kx -> k_open kx = true -> k_client kx <> None) /\
  (forall x, In x (v_subs s86) -> s_mode x <= 2) /\
  map s_conn (v_subs s86) = [2; 3] /\ map s_mode (v_subs s86) = [0; 1] /\ listens s86 2 /\ listens s86 3 /\
  on_publish true 7 ta = VAllowed (mkST [] ta 1 false).
Proof.
  assert (Hs : v_subs s86 = [mkSub 7 ta 0 2 0 (le 8 1); mkSub 7 ta 1 3 0 (le 8 0)]) by (vm_compute; reflexivity).
  split; [exists 0, (three 1 ++ [sub 2 0]); vm_compute; reflexivity|]. split.
  { intros x kx. rewrite Hs. intro H. repeat destruct H as [H|H]; [| |contradiction]; subst x; vm_compute; intros [= <-]; discriminate. }
  split; [intros x; rewrite Hs; intro H; repeat destruct H as [H|H]; [| |contradiction]; subst x; vm_compute; discriminate|].
  split; [vm_compute; reflexivity|]. split; [vm_compute; reflexivity|].
  split; [do 2 eexists; split; [vm_compute; reflexivity|]; split; reflexivity|].
  split; [do 2 eexists; split; [vm_compute; reflexivity|]; split; reflexivity|]. vm_compute. reflexivity.
Qed.
