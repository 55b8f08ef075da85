(** Runs of the server that break what clients rely on (C80-C87). *)
From Coq Require Import Lia ZifyBool ZifyNat ZifyN.
From Verif Require Import M_Bytes M_Keys M_MsgIds M_Conn S_Conn.
Open Scope N_scope.

(** ** A small world *)
Definition E0 : env :=
  mkEnv (fun a b => if list_eq_dec N.eq_dec a b then true else false) (fun _ _ => true) (fun l => l)
        (fun _ => Some 0) (fun _ => None) (fun _ _ => []) (fun _ _ => []) (fun _ => false).
Lemma E0_parses : parses_small E0.
Proof. intros n p H. discriminate H. Qed.
Lemma E0_orders : orders E0.
Proof. intros l x. reflexivity. Qed.

(** An identifier with an epoch and a contract *)
Definition cid (epoch contract : N) : bytes := be 4 epoch ++ [0; 0; 1; 1] ++ be 4 contract.
Definition ep (n : N) : N := 4000000000 + n.
Definition con (c e contract : N) (key : Z) : event :=
  EPacket c (QConnect (CAccepted (cid (ep e) contract) []) true false key).
Definition ta : bytes := [97].
Definition tb : bytes := [98].
Definition sub (c mode : N) : event := EPacket c (QSub [(ta, mode, 0%Z)] 1).
Definition pb (id mode : N) (text : bytes) (x : N) : pub := mkPub id mode [mkPM text [x]].
Definition send (c id mode x : N) : event := EPacket c (QPub (pb id mode ta x)).

(** Publishers 1 and 2 and subscriber 3 of contract 7 *)
Definition three (mode : N) : list event :=
  [EAccept; EAccept; EAccept; con 1 1 7 0; con 2 2 7 0; con 3 3 7 0; sub 3 mode].


Definition get (o : option server) : server := match o with Some s => s | None => server_new 0 end.
Definition after (es : list event) : server := get (run E0 (server_new 0) es).

(** ** C80 *)
Definition s80 : server := after (three 1 ++ [send 1 5 1 10; ERun 0; ERun 0]).
Lemma overwritten : exists E s i p c sess s1 es s2 q,
  parses_small E /\ reached E s /\ 0 < p_id p < 2 ^ 16 /\ delivering s i p c sess /\
  step E s (ERun i) = Some s1 /\ run E s1 es = Some s2 /\ Forall no_receipt es /\ serves s2 c sess /\ q <> p /\
  forall ty, exists s3, step E s2 (EPacket c (QFlow ty fRECEIVE (p_id p))) = Some s3 /\ out s3 c = out s2 c ++ [KPub q].
Proof.
  exists E0, s80, 0%nat, (pb 5 1 ta 10), 3, 3, (get (step E0 s80 (ERun 0))), [send 2 5 1 20; ERun 1; ERun 1; ERun 1],
    (get (run E0 (get (step E0 s80 (ERun 0))) [send 2 5 1 20; ERun 1; ERun 1; ERun 1])), (pb 5 1 ta 20).
  split; [exact E0_parses|]. split; [exists 0, (three 1 ++ [send 1 5 1 10; ERun 0; ERun 0]); vm_compute; reflexivity|].
  split; [split; reflexivity|]. split.
  { unfold delivering. do 5 eexists. split; [vm_compute; reflexivity|]. split; [left; reflexivity|]. split; [left; reflexivity|].
    split; [constructor|]. split; [reflexivity|]. split; [vm_compute; reflexivity|]. split; reflexivity. }
  split; [vm_compute; reflexivity|]. split; [vm_compute; reflexivity|]. split; [repeat constructor|].
  split; [eexists; split; [vm_compute; reflexivity|]; repeat split|]. split; [discriminate|].
  intro ty. eexists. split; [vm_compute; reflexivity|]. vm_compute. reflexivity.
Qed.
Definition s80z : server := after (three 1 ++ [send 1 0 1 10; ERun 0; ERun 0]).
Lemma number_zero : exists E s i p c0 m id n todo c sess s1,
  parses_small E /\ reached E s /\ nth_error (v_tasks s) i = Some (TSend c0 p m id n todo) /\ p_mode p = 1 /\ wants_reliable n /\
  s_conn n = c /\ serves s c sess /\ step E s (ERun i) = Some s1 /\ out s1 c = out s c ++ [KCtl tPUBLISH fNOTIFY id] /\
  forall ty, exists s2, step E s1 (EPacket c (QFlow ty fRECEIVE id)) = Some s2 /\ out s2 c = out s1 c /\ ~ serves s2 c sess.
Proof.
  exists E0, s80z, 0%nat, (pb 0 1 ta 10). do 5 eexists. exists 3, 3. eexists.
  split; [exact E0_parses|]. split; [exists 0, (three 1 ++ [send 1 0 1 10; ERun 0; ERun 0]); vm_compute; reflexivity|].
  split; [vm_compute; reflexivity|]. split; [reflexivity|]. split; [left; reflexivity|]. split; [reflexivity|].
  split; [eexists; split; [vm_compute; reflexivity|]; repeat split|].
  split; [vm_compute; reflexivity|]. split; [vm_compute; reflexivity|].
  intro ty. eexists. split; [vm_compute; reflexivity|]. split; [vm_compute; reflexivity|].
  intros (k & Hk & Ho & _). vm_compute in Hk. injection Hk as <-. discriminate Ho.
Qed.

(** ** C81 *)
(** the text of a topic with a key for it *)
Definition keyed (contract : N) (topic : bytes) : bytes :=
  match on_keygen contract topic [114; 119] with Some k => k ++ 47 :: topic | None => [] end.
Definition conS (c e contract : N) : event :=
  EPacket c (QConnect (CAccepted (cid (ep e) contract) []) false false 0).
Definition secret : bytes := Eval vm_compute in keyed 7 tb.
Definition open_a : bytes := Eval vm_compute in keyed 7 ta.
Definition p81 : pub := mkPub 5 1 [mkPM open_a [10]; mkPM secret [20]].
Definition es81 : list event :=
  [EAccept; EAccept; conS 1 1 7; conS 2 2 7; EPacket 2 (QSub [(open_a, 1, 0%Z)] 1); EPacket 1 (QPub p81);
   ERun 0; ERun 0; ERun 0; EPacket 2 (QFlow 2 fRECEIVE 5)].
Lemma sub_parse : forall ins contract text t, on_subscribe ins contract text = VAllowed t -> parse_skey text = Some t.
Proof.
  intros ins contract text t. unfold on_subscribe. destruct (parse_skey text) as [q|]; [|discriminate].
  destruct (st_invalid q); [discriminate|]. destruct ins; [congruence|]. destruct (on_secure contract q); congruence.
Qed.
Lemma other_topics : exists E n es s c q m t contract,
  parses_small E /\ run E (server_new n) es = Some s /\ In (KPub q) (out s c) /\ In m (p_msgs q) /\
  on_publish false contract (pm_topic m) = VAllowed t /\
  (exists id, accepted es c id false /\ id_contract id = contract) /\
  forall contract' topic, subscribed es c contract' topic -> e_match E topic (st_topic t) = false.
Proof.
  exists E0, 0, es81, (after es81), 2, p81, (mkPM secret [20]).
  exists (match parse_skey secret with Some t => t | None => mkST [] [] 0 false end), 7.
  split; [exact E0_parses|]. split; [vm_compute; reflexivity|]. split.
  { assert (H : exists l, out (after es81) 2 = l ++ [KPub p81]) by (exists [KCtl 1 1 0; KCtl 4 1 1; KCtl 2 2 5]; vm_compute; reflexivity).
    destruct H as [l ->]. apply in_or_app. right. now left. }
  split; [right; now left|]. split; [vm_compute; reflexivity|].
  split; [exists (cid (ep 2) 7); split; [|reflexivity]; exists [], false, 0%Z; cbn; tauto|].
  intros contract' topic (id & ins & l & i & text & mode & delay & t & _ & _ & Hin & Hl & Hon & <-).
  apply sub_parse in Hon. unfold es81 in Hin. cbn [In] in Hin.
  repeat destruct Hin as [Hin|Hin]; try discriminate Hin; [|contradiction]. injection Hin as <- <-.
  destruct Hl as [Hl|[]]. injection Hl as <- <- <-. vm_compute in Hon. injection Hon as <-. reflexivity.
Qed.

(** ** C82 *)
(** Subscriber 16, a session with bit 4 *)
Definition es82 : list event :=
  [EAccept; EAccept; con 16 1 7 0; con 17 2 7 0; sub 16 1; send 17 5 1 10; ERun 0; ERun 0; ERun 0; ELost 16; EAccept].
Definition s82 : server := get (run E0 (server_new 15) es82).
Lemma not_clean : forall es, forallb (fun ev => match ev with EPacket _ (QConnect _ _ clean _) => negb clean
    | EPacket _ (QFlow _ flow _) => negb (flow =? fRECEIPT) | _ => true end) es = true ->
  Forall (fun ev => ~ asks_clean ev /\ ~ reports ev) es.
Proof.
  intros es H. rewrite forallb_forall in H. apply Forall_forall. intros ev Hin. specialize (H ev Hin).
  destruct ev as [|c q| | | |]; cbn; try tauto. destruct q; cbn; try tauto; split; try tauto; intros ->; discriminate H.
Qed.
Lemma session_bit : exists E n es s c who ch ins key sess id p s',
  parses_small E /\ orders E /\ run E (server_new n) es = Some s /\ Forall (fun ev => ~ asks_clean ev /\ ~ reports ev) es /\
  waiting s sess id p /\ 0 < id < 2 ^ 16 /\ presented es sess (session_key who key) /\
  step E s (EPacket c (QConnect (CAccepted who ch) ins false key)) = Some s' /\
  serves s' c sess /\ ~ In (KCtl tPUBLISH fNOTIFY id) (out s' c) /\ ~ waiting s' sess id p.
Proof.
  exists E0, 15, es82, s82, 18, (cid (ep 1) 7), [], true, 0%Z, 16, 5, (pb 5 1 ta 10).
  eexists. split; [exact E0_parses|]. split; [exact E0_orders|]. split; [vm_compute; reflexivity|].
  split; [apply not_clean; vm_compute; reflexivity|]. split; [vm_compute; reflexivity|]. split; [split; reflexivity|].
  split; [exists (cid (ep 1) 7), [], true, false, 0%Z; split; [cbn; tauto|reflexivity]|].
  split; [vm_compute; reflexivity|]. split; [eexists; split; [vm_compute; reflexivity|]; repeat split|].
  split; [vm_compute; intuition discriminate|vm_compute; discriminate].
Qed.
Definition es82b : list event :=
  [EAccept; EAccept; con 1 1 7 0; con 2 2 7 0; sub 1 1; send 2 5 1 10; ERun 0; ERun 0; ERun 0; ELost 1;
   EAccept; con 3 1 7 0; ELost 3; EAccept].
Lemma second_time : exists E n es s c who ch ins key sess id p s',
  parses_small E /\ orders E /\ run E (server_new n) es = Some s /\ Forall (fun ev => ~ asks_clean ev /\ ~ reports ev) es /\
  waiting s sess id p /\ 0 < id < 2 ^ 16 /\ presented es sess (session_key who key) /\ N.testbit sess 4 = false /\
  step E s (EPacket c (QConnect (CAccepted who ch) ins false key)) = Some s' /\
  ~ serves s' c sess /\ ~ In (KCtl tPUBLISH fNOTIFY id) (out s' c).
Proof.
  exists E0, 0, es82b, (after es82b), 4, (cid (ep 1) 7), [], true, 0%Z, 1, 5, (pb 5 1 ta 10).
  eexists. split; [exact E0_parses|]. split; [exact E0_orders|]. split; [vm_compute; reflexivity|].
  split; [apply not_clean; vm_compute; reflexivity|]. split; [vm_compute; reflexivity|]. split; [split; reflexivity|].
  split; [exists (cid (ep 1) 7), [], true, false, 0%Z; split; [cbn; tauto|reflexivity]|]. split; [reflexivity|].
  split; [vm_compute; reflexivity|]. split; [|vm_compute; intuition discriminate].
  intros (k & Hk & _ & _ & Hs). vm_compute in Hk. injection Hk as <-. discriminate Hs.
Qed.
(** The session was opened with a session key; the client comes back with its
    identifier only. *)
Definition es82c : list event :=
  [EAccept; EAccept; con 1 1 7 9; con 2 2 7 0; sub 1 1; send 2 5 1 10; ERun 0; ERun 0; ERun 0; ELost 1; EAccept].
Lemma by_identifier : exists E n es s c who ch ins sess id p s' key,
  parses_small E /\ orders E /\ run E (server_new n) es = Some s /\ Forall (fun ev => ~ asks_clean ev /\ ~ reports ev) es /\
  waiting s sess id p /\ 0 < id < 2 ^ 16 /\ N.testbit sess 4 = false /\
  In (EPacket sess (QConnect (CAccepted who ch) ins false key)) es /\
  step E s (EPacket c (QConnect (CAccepted who ch) ins false 0)) = Some s' /\
  ~ serves s' c sess /\ ~ In (KCtl tPUBLISH fNOTIFY id) (out s' c).
Proof.
  exists E0, 0, es82c, (after es82c), 3, (cid (ep 1) 7), [], true, 1, 5, (pb 5 1 ta 10).
  eexists. exists 9%Z. split; [exact E0_parses|]. split; [exact E0_orders|]. split; [vm_compute; reflexivity|].
  split; [apply not_clean; vm_compute; reflexivity|]. split; [vm_compute; reflexivity|]. split; [split; reflexivity|].
  split; [reflexivity|]. split; [cbn; tauto|].
  split; [vm_compute; reflexivity|]. split; [|vm_compute; intuition discriminate].
  intros (k & Hk & _ & _ & Hs). vm_compute in Hk. injection Hk as <-. discriminate Hs.
Qed.

(** ** C83 *)
Definition es83 : list event := three 0 ++ [send 1 5 0 10; ERun 0; ERun 0; ERun 0].
Lemma express_again : exists E n es s c q es' s' c',
  parses_small E /\ orders E /\ run E (server_new n) es = Some s /\ In (KPub q) (out s c) /\ p_mode q = 0 /\
  run E s es' = Some s' /\ Forall (fun ev => forall a p, ev <> EPacket a (QPub p)) es' /\
  In (KCtl tPUBLISH fNOTIFY (p_id q)) (out s' c').
Proof.
  exists E0, 0, es83, (after es83), 3, (pb 5 0 ta 10), [ELost 3; EAccept; con 4 3 7 0]. eexists. exists 4.
  split; [exact E0_parses|]. split; [exact E0_orders|]. split; [vm_compute; reflexivity|].
  split; [vm_compute; tauto|]. split; [reflexivity|]. split; [vm_compute; reflexivity|].
  split; [repeat constructor; discriminate|]. vm_compute. tauto.
Qed.

(** ** C84 *)
(** "unitdb/clientid" *)
Definition ask_id : bytes := [117; 110; 105; 116; 100; 98; 47; 99; 108; 105; 101; 110; 116; 105; 100].
Lemma first_packet : exists E n c p, parses_small E /\ run E (server_new n) [EAccept; EPacket c (QPub p)] = None.
Proof. exists E0, 0, 1, (mkPub 1 0 [mkPM ask_id []]). split; [exact E0_parses|]. vm_compute. reflexivity. Qed.
Lemma closed_channel : exists E n es s i c, parses_small E /\ run E (server_new n) es = Some s /\
  Forall (fun ev => forall a ins cl key, ev <> EPacket a (QConnect CPanic ins cl key)) es /\
  run E s [ELost c; ERun i] = None.
Proof.
  exists E0, 0, (three 1 ++ [send 1 5 1 10; ERun 0; ERun 0]), s80, 0%nat, 3.
  split; [exact E0_parses|]. split; [vm_compute; reflexivity|]. split; [|vm_compute; reflexivity].
  repeat constructor; discriminate.
Qed.

(** ** C85 *)
(** Client 3 of contract 7 opens a session under key 9; client 4 of contract 8
    presents 9. *)
Definition es85 : list event :=
  [EAccept; EAccept; con 1 1 7 0; con 2 3 7 9; sub 2 1; send 1 5 1 10; ERun 0; ERun 0; ERun 0; EAccept;
   con 3 4 8 9; EPacket 3 (QFlow 2 fRECEIVE 5)].
Lemma not_subscribed : forall es c, forallb (fun ev => match ev with EPacket a (QSub _ _) => negb (a =? c) | _ => true end) es = true ->
  forall contract topic, ~ subscribed es c contract topic.
Proof.
  intros es c H contract topic (id & ins & l & i & text & mode & delay & t & _ & _ & Hin & _).
  rewrite forallb_forall in H. specialize (H _ Hin). cbn in H. rewrite N.eqb_refl in H. discriminate H.
Qed.
Lemma foreign_session : exists E n es s c q id, parses_small E /\ run E (server_new n) es = Some s /\
  In (KPub q) (out s c) /\ (exists m, In m (p_msgs q) /\ ~ from_server m /\ ~ relayed es c m) /\
  accepted es c id true /\ (forall contract topic, ~ subscribed es c contract topic) /\
  forall c0 id0 ins0, In (EPacket c0 (QPub q)) es -> accepted es c0 id0 ins0 -> id_contract id0 <> id_contract id.
Proof.
  exists E0, 0, es85, (after es85), 3, (pb 5 1 ta 10), (cid (ep 4) 8).
  split; [exact E0_parses|]. split; [vm_compute; reflexivity|]. split; [vm_compute; tauto|]. split.
  { exists (mkPM ta [10]). split; [now left|]. split; [intros (r & H); discriminate H|].
    intros (l & i & text & ms & H & _). cbn in H. intuition discriminate. }
  split; [exists [], false, 9%Z; cbn; tauto|]. split; [apply not_subscribed; reflexivity|].
  intros c0 id0 ins0 H (ch & cl & key & G).
  assert (c0 = 1) by (cbn in H; repeat destruct H as [H|H]; try discriminate H; [now injection H|contradiction]). subst.
  cbn in G. repeat destruct G as [G|G]; try discriminate G; [|contradiction]. injection G as <- _ _ _. discriminate.
Qed.
(** Two identifiers of the same second, no session keys. *)
Definition es85b : list event :=
  [EAccept; EAccept; con 1 1 7 0; con 2 3 7 0; sub 2 1; send 1 5 1 10; ERun 0; ERun 0; ERun 0; EAccept;
   con 3 3 8 0; EPacket 3 (QFlow 2 fRECEIVE 5)].
Lemma same_second : exists E n es s c q id, parses_small E /\ run E (server_new n) es = Some s /\
  In (KPub q) (out s c) /\ (exists m, In m (p_msgs q) /\ ~ from_server m /\ ~ relayed es c m) /\
  accepted es c id true /\ (forall contract topic, ~ subscribed es c contract topic) /\
  (forall a who ch ins cl key, In (EPacket a (QConnect (CAccepted who ch) ins cl key)) es -> key = 0%Z) /\
  forall c0 id0 ins0, In (EPacket c0 (QPub q)) es -> accepted es c0 id0 ins0 -> id_contract id0 <> id_contract id.
Proof.
  exists E0, 0, es85b, (after es85b), 3, (pb 5 1 ta 10), (cid (ep 3) 8).
  split; [exact E0_parses|]. split; [vm_compute; reflexivity|]. split; [vm_compute; tauto|]. split.
  { exists (mkPM ta [10]). split; [now left|]. split; [intros (r & H); discriminate H|].
    intros (l & i & text & ms & H & _). cbn in H. intuition discriminate. }
  split; [exists [], false, 0%Z; cbn; tauto|]. split; [apply not_subscribed; reflexivity|]. split.
  { intros a who ch ins cl key H. cbn in H. repeat destruct H as [H|H]; try discriminate H; [| | |contradiction]; now injection H. }
  intros c0 id0 ins0 H (ch & cl & key & G).
  assert (c0 = 1) by (cbn in H; repeat destruct H as [H|H]; try discriminate H; [now injection H|contradiction]). subst.
  cbn in G. repeat destruct G as [G|G]; try discriminate G; [|contradiction]. injection G as <- _ _ _. discriminate.
Qed.

(** ** C87 *)
Lemma out_of_order : exists E n es c c' p q rest s l,
  parses_small E /\ run E (server_new n) (es ++ EPacket c (QPub p) :: EPacket c (QPub q) :: rest) = Some s /\ p <> q /\
  (forall a r, In (EPacket a (QPub r)) (es ++ rest) -> False) /\
  out s c' = l ++ [KPub q; KPub p].
Proof.
  exists E0, 0, (three 0), 1, 3, (pb 5 0 ta 10), (pb 6 0 ta 20), [ERun 1; ERun 1; ERun 1; ERun 0; ERun 0; ERun 0].
  do 2 eexists. split; [exact E0_parses|]. split; [vm_compute; reflexivity|]. split; [discriminate|]. split.
  - intros a r H. cbn in H. intuition discriminate.
  - exact (eq_refl ([KCtl 1 1 0; KCtl 4 1 1] ++ [KPub (pb 6 0 ta 20); KPub (pb 5 0 ta 10)])).
Qed.
