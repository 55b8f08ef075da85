(** The oracles of M_Conn about encoded packets (C81, C84). *)
From Coq Require Import Lia ZifyBool ZifyNat ZifyN.
From Verif Require Import M_Bytes M_Keys M_Conn M_Wire M_Proto S_Conn S_Packet S_Wired P_Bytes P_Proto P_Packet P_Origin P_Forget P_Deliver.
Open Scope N_scope.

Lemma wired_small E : wired E -> parses_small E.
Proof.
  intros [H _] n q F. destruct (H _ _ F) as (p & rest & R & C). destruct p; try contradiction C.
  apply four_bytes in R; [|rewrite le_length; lia]. subst. destruct C as (A & _ & B). cbn in A, B. now rewrite <- A, <- B.
Qed.
Lemma session_no_panic n : read_pack (le 4 n) <> RPanic.
Proof. apply few_bytes; [apply le_ok|rewrite le_length; lia]. Qed.

Lemma tag_len num wt : (1 <= length (tag num wt))%nat.
Proof. unfold tag. destruct (varint_cons (8 * num + wt)) as (d & r & ->). cbn. lia. Qed.
Lemma varint_len n : (1 <= length (varint n))%nat.
Proof. destruct (varint_cons n) as (d & r & ->). cbn. lia. Qed.
Lemma uint_len num n : n <> 0 -> (2 <= length (f_uint num n))%nat.
Proof.
  intro H. unfold f_uint. replace (n =? 0) with false by lia. rewrite app_length. pose proof (tag_len num 0). pose proof (varint_len n). lia.
Qed.
Lemma f_msg_len num b : (2 <= length (f_msg num b))%nat.
Proof. unfold f_msg. rewrite !app_length. pose proof (tag_len num 2). pose proof (varint_len (N.of_nat (length b))). lia. Qed.
Lemma encode_len n : (1 <= length (encodeLength n))%nat.
Proof. unfold encodeLength. cbn [encodeLength_loop]. cbn. lia. Qed.
Lemma msg_encode_len ty (fl : N) (body : bytes) : ty <> 0 -> (3 + (if (fl =? 0)%N then 0 else 2) + length body <= length (msg_encode pb_header ty fl body))%nat.
Proof.
  intro H. unfold msg_encode, fh_pack. cbn [fh_type fh_flow fh_len hc_marshal pb_header]. rewrite !app_length.
  pose proof (encode_len (N.of_nat (length (f_uint 1 ty ++ f_uint 2 fl ++ f_int 3 (to_signed 32 (u32 (N.of_nat (length body)))))))) as A.
  rewrite !app_length in A. pose proof (uint_len 1 ty H) as B. destruct (N.eqb_spec fl 0).
  - lia.
  - pose proof (uint_len 2 fl n). lia.
Qed.
Lemma long_enough k p b : match k with KPub q => p_msgs q <> [] | KCtl _ fl _ => fl = fRECEIPT end ->
  carries k p -> to_binary p = Some b -> (4 <= length b)%nat.
Proof.
  intros K C E. destruct p as [| u | | | | | |c]; try (destruct k; contradiction C).
  - destruct k as [q|]; [|contradiction C]. destruct C as (_ & _ & C). cbn [to_binary] in E.
    destruct (enc_publish u) as [e|] eqn:F; [|discriminate]. injection E as <-.
    pose proof (msg_encode_len PUBLISH 0 e ltac:(discriminate)) as L. change (0 =? 0) with true in L. cbv iota in L.
    assert (2 <= length e)%nat; [|lia]. unfold enc_publish, enc_with in F.
    destruct (pu_msgs u) as [|m l]; [cbn in C; congruence|]. cbn [enc_list] in F.
    destruct (enc_pubmsg m) as [x|]; [|discriminate]. destruct (enc_list 3 enc_pubmsg l) as [y|]; [|discriminate].
    assert (F2 : e = (f_uint 1 (pu_id u) ++ f_uint 2 (pu_mode u)) ++ f_msg 3 x ++ y) by (cbn [option_map] in F; congruence).
    rewrite F2, !app_length. pose proof (f_msg_len 3 x). lia.
  - destruct k as [q|ty fl i]; [contradiction C|]. destruct C as (A & B & _). cbn [to_binary] in E.
    unfold ctl_head in E. rewrite B, K in E. change (fRECEIPT =? 1) with false in E. change ((2 <=? fRECEIPT) && (fRECEIPT <=? 5)) with true in E.
    cbv iota in E. change (PUBLISH =? 0) with false in E. cbv iota in E.
    assert (E2 : b = msg_encode pb_header PUBLISH fRECEIPT (enc_control c)) by congruence. rewrite E2.
    pose proof (msg_encode_len PUBLISH fRECEIPT (enc_control c) ltac:(discriminate)) as L. change (fRECEIPT =? 0) with false in L. cbv iota in L.
    lia.
Qed.

Lemma crash_wired : forall E s ev, wired E -> reached E s -> step E s ev = None -> crash_cause_wired E s ev.
Proof.
  intros E s ev W R F. pose proof (wired_small E W) as S. pose proof (crash_r E s ev S R F) as C.
  destruct ev as [|c q|i|c|c|m]; try exact C. destruct q as [who ins clean key| | | | | |]; try exact C.
  destruct who as [|id ch|id]; try exact C. cbn [crash_cause crash_cause_wired] in *.
  destruct R as (n & es & R). pose proof (inv_reached E S _ _ _ R) as I.
  unfold sess_get in C. destruct (aget (v_log s) _) as [[k|x]|] eqn:G; try discriminate C.
  destruct (e_head E k) eqn:H; [discriminate C|]. destruct W as [_ W]. destruct (W k H) as (p & b & A & B & L).
  destruct (i_log _ _ _ _ I _ _ G) as (bl & i & _ & _ & _ & K).
  assert (4 <= length b)%nat; [|lia]. eapply long_enough; [|exact A|exact B]. destruct k; [apply K|exact K].
Qed.

(** ** The oracles of the code *)
Definition pack_of (k : packet) : pack :=
  match k with
  | KPub q => PPublish (mkPubl (p_id q) (p_mode q) (map (fun m => mkPMsg (pm_topic m) (pm_payload m) []) (p_msgs q)))
  | KCtl ty flow id => PControl (mkCtl id ty flow [])
  end.
Definition head_of (k : packet) : option N :=
  match to_binary (pack_of k) with
  | Some b => if Nat.ltb (length b) 4 then None else Some (unle (firstn 4 b))
  | None => Some 0
  end.
Definition parse_of (n : N) : option packet :=
  match read_pack (le 4 n) with
  | RPack (PPublish u) _ => Some (KPub (mkPub (pu_id u) (pu_mode u) (map (fun m => mkPM (pm_top m) (pm_pay m)) (pu_msgs u))))
  | RPack _ _ => Some (KCtl 0 0 0)
  | _ => None
  end.
Definition E1 : env :=
  mkEnv (fun a b => if list_eq_dec N.eq_dec a b then true else false) (fun _ _ => true) (fun l => l)
        head_of parse_of (fun _ _ => []) (fun _ _ => []) (fun _ => false).
Lemma pack_of_carries k : carries k (pack_of k).
Proof.
  destruct k as [q|ty fl i]; cbn; [|auto]. split; [reflexivity|]. split; [reflexivity|]. rewrite map_map. cbn.
  induction (p_msgs q) as [|[t p] l IH]; [reflexivity|]. cbn [map pm_topic pm_payload]. now rewrite IH.
Qed.
Lemma E1_wired : wired E1.
Proof.
  split.
  - intros n k H. cbn [e_parse E1] in H. unfold parse_of in H. destruct (read_pack (le 4 n)) as [| |p rest]; try discriminate H.
    exists p, rest. split; [reflexivity|].
    destruct p; injection H as <-; cbn [reads_as]; try (intros u D; discriminate D). cbn. auto.
  - intros k H. cbn [e_head E1] in H. unfold head_of in H. destruct (to_binary (pack_of k)) as [b|] eqn:B; [|discriminate].
    destruct (Nat.ltb_spec (length b) 4) as [L|L]; [|discriminate]. exists (pack_of k), b. split; [apply pack_of_carries|]. auto.
Qed.
Lemma origin_wired : forall E n es s c q, wired E -> run E (server_new n) es = Some s -> In (KPub q) (out s c) -> good_pub E es c q.
Proof. intros E n es s c q W. apply origin_r. now apply wired_small. Qed.
Lemma own_session_wired : forall E n es s c q, wired E -> calm es -> run E (server_new n) es = Some s ->
  In (KPub q) (out s c) -> own_pub E es c q.
Proof. intros E n es s c q W. apply own_session_r. now apply wired_small. Qed.
