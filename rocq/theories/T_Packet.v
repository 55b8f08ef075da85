(** Property theorems: packets on the wire (C88, C89) and their use in the log
    of the server (C81, C84, C85). *)
From Verif Require Import M_Bytes M_Keys M_Conn M_Wire M_Proto S_Conn S_Packet S_Wired P_Proto P_Utf8 P_Packet P_Wired.
From Coq Require Import Lia.
Open Scope N_scope.

(** C88: a sequence of packets comes back with every field *)
Theorem C88_partial : forall ps bs, written ps bs -> forall fuel, (length ps <= fuel)%nat -> read_packs fuel bs = (ps, false).
Proof. exact read_all_packs. Qed.
Print Assumptions C88_partial.
(** whatever follows a packet is left for the next read *)
Theorem C88_rest_partial : forall p b rest, sent p -> to_binary p = Some b -> N.of_nat (length b) < 2 ^ 31 ->
  read_pack (b ++ rest) = RPack p rest.
Proof. exact read_back. Qed.
Print Assumptions C88_rest_partial.
(** a packet can be sent if and only if its strings are UTF-8 *)
Theorem C88_strings_partial : forall p, to_binary p <> None <-> Forall text (strings p).
Proof. exact encodes_text. Qed.
Print Assumptions C88_strings_partial.
(** the text of two and three bytes, and a byte that is none *)
Example C88_texts : text [0xC3; 0xA9; 0xE2; 0x82; 0xAC; 65] /\ ~ text [65; 0xFF].
Proof.
  split.
  - exists [0xE9; 0x20AC; 65]. split; [|reflexivity]. unfold scalar. repeat constructor; lia.
  - rewrite <- utf8_text. discriminate.
Qed.
(** the answer to a CONNECT *)
Theorem C88_connack : forall a, ca_code a < 2 ^ 8 -> in32 (ca_epoch a) -> in32 (ca_conn a) -> dec_connack (enc_connack a) = a.
Proof. exact connack_round. Qed.
Print Assumptions C88_connack.
(** the answer to a ping is read as a ping *)
Theorem C88_ping_refuted : exists b, to_binary (PControl (mkCtl 0 PINGREQ 1 [])) = Some b /\ read_pack b = RPack PPing [].
Proof. exact ping_ack. Qed.
Print Assumptions C88_ping_refuted.
(** with an identifier in it, the packets after it are lost *)
Theorem C88_after_ping_refuted : exists p q b c, to_binary p = Some b /\ sent q /\ to_binary q = Some c /\
  read_packs 5 (b ++ c) = ([PPing], false).
Proof. exact out_of_step. Qed.
Print Assumptions C88_after_ping_refuted.
Theorem C88_disconnect_refuted : exists id b, id <> 0 /\ to_binary (PDisconnect id) = Some b /\ read_pack b = RPack (PDisconnect 0) [].
Proof. exact disconnect_id. Qed.
Print Assumptions C88_disconnect_refuted.
Theorem C88_string_refuted : exists u, pu_id u = 1 /\ to_binary (PPublish u) = None.
Proof. exact bad_string. Qed.
Print Assumptions C88_string_refuted.

(** C89: a stream that breaks off gives the packets that arrived, no others *)
Theorem C89_partial : forall ps bs, written ps bs -> forall k fuel, (length ps <= fuel)%nat ->
  exists ps1 ps2 bs1, ps = ps1 ++ ps2 /\ written ps1 bs1 /\ (length bs1 <= k)%nat /\ read_packs fuel (firstn k bs) = (ps1, false) /\
    match ps2 with [] => True | p :: _ => exists b, to_binary p = Some b /\ (k < length bs1 + length b)%nat end.
Proof. exact stream_cut. Qed.
Print Assumptions C89_partial.
Theorem C89_short_partial : forall b, bytes_ok b -> (length b < 7)%nat -> read_pack b <> RPanic.
Proof. exact few_bytes. Qed.
Print Assumptions C89_short_partial.
(** nine bytes after any stream bring the server down *)
Theorem C89_refuted : forall ps bs, written ps bs ->
  exists x, length x = 9%nat /\ bytes_ok x /\ read_packs (S (length ps)) (bs ++ x) = (ps, true).
Proof. exact poisoned. Qed.
Print Assumptions C89_refuted.

(** C43: the header of the code meets what C43_stream asks *)
Theorem C43_header : hcodec_ok pb_header.
Proof. exact header_ok. Qed.
Print Assumptions C43_header.

(** C81, C84, C85 for the log with the encodings of the code *)
Theorem C81_wired_partial : forall E n es s c q, wired E -> run E (server_new n) es = Some s -> In (KPub q) (out s c) -> good_pub E es c q.
Proof. exact origin_wired. Qed.
Print Assumptions C81_wired_partial.
Theorem C84_wired_partial : forall E s ev, wired E -> reached E s -> step E s ev = None -> crash_cause_wired E s ev.
Proof. exact crash_wired. Qed.
Print Assumptions C84_wired_partial.
Theorem C85_wired_partial : forall E n es s c q, wired E -> calm es -> run E (server_new n) es = Some s ->
  In (KPub q) (out s c) -> own_pub E es c q.
Proof. exact own_session_wired. Qed.
Print Assumptions C85_wired_partial.

(** Examples *)
Definition ex_connect : pack := PConnect (mkCo 4 true [99; 195; 164] (-1) false (-2147483648) [] [0; 255] 100 2147483647 300).
Definition ex_publish : pack := PPublish (mkPubl 65535 255 [mkPMsg [97] [] []; mkPMsg [] [1; 2; 3] [49; 109]; mkPMsg [] [] []]).
Definition ex_subscribe : pack := PUnsubscribe (mkSubs 300 [mkSu 2 (-5) [97; 46; 98]; mkSu 0 0 []]).
Definition ex_control : pack := PControl (mkCtl 1000 PUBLISH 4 [1]).
Definition ex_bytes (p : pack) : bytes := match to_binary p with Some b => b | None => [] end.
Definition ex_all : list pack := [ex_connect; ex_publish; PPing; ex_subscribe; PRelay (mkRel 1 [mkRR [97] [49]]); ex_control; PDisconnect 0].
Example C88_example : written ex_all (flat_map ex_bytes ex_all).
Proof.
  assert (H : flat_map ex_bytes ex_all = ex_bytes ex_connect ++ ex_bytes ex_publish ++ ex_bytes PPing ++ ex_bytes ex_subscribe ++
    ex_bytes (PRelay (mkRel 1 [mkRR [97] [49]])) ++ ex_bytes ex_control ++ ex_bytes (PDisconnect 0) ++ []) by reflexivity.
  rewrite H. unfold ex_all.
  repeat (apply written_cons; [|vm_compute; reflexivity|vm_compute; reflexivity|]); [..|apply written_nil].
  - cbn. unfold in32. lia.
  - cbn. lia.
  - exact I.
  - split; [reflexivity|]. repeat constructor; cbn; unfold in32; lia.
  - reflexivity.
  - split; [reflexivity|]. right. split; [cbn; lia|reflexivity].
  - reflexivity.
Qed.
Example C88_example_bytes : ex_bytes ex_control = [6; 8; 2; 16; 4; 24; 6; 8; 232; 7; 18; 1; 1].
Proof. vm_compute. reflexivity. Qed.
Example C89_example : read_packs 9 (firstn 130 (flat_map ex_bytes ex_all)) = (firstn 5 ex_all, false).
Proof. vm_compute. reflexivity. Qed.
Example C81_wired_example : wired E1.
Proof. exact E1_wired. Qed.
