(** Short and hostile input of the packet reader (C88, C89). *)
From Coq Require Import Lia ZifyBool ZifyNat ZifyN.
From Verif Require Import M_Bytes M_Wire M_Proto S_Server S_Packet P_Bytes P_Wire P_Proto.
Open Scope N_scope.

Notation ends r b := (exists p, b = p ++ r).
Lemma ends_trans (a b c : bytes) : ends a b -> ends b c -> ends a c.
Proof. intros [p ->] [q ->]. exists (q ++ p). apply app_assoc. Qed.
Lemma ends_len (r b : bytes) : ends r b -> (length r <= length b)%nat.
Proof. intros [p ->]. rewrite app_length. lia. Qed.
Lemma ends_ok (r b : bytes) : ends r b -> bytes_ok b -> bytes_ok r.
Proof. intros [p ->] H. apply bytes_ok_app in H. tauto. Qed.
Lemma pv_dec_len k : forall b v r, bytes_ok b -> pv_dec k b = Some (v, r) ->
  v < 2 ^ (7 * N.of_nat (length b - length r)) /\ (length r < length b)%nat /\ ends r b.
Proof.
  induction k as [|k IH]; intros b v r O H; [discriminate|]. destruct b as [|d b]; [discriminate|].
  inversion O as [|? ? Od Ob]; subst.
  destruct (N.ltb_spec d 128) as [D|D].
  - assert (E : (d, b) = (v, r)). { cbn [pv_dec] in H. replace (d <? 128) with true in H by lia. destruct k; [destruct (1 <? d); [discriminate|]|]; congruence. } injection E as <- <-.
    cbn [length]. split; [|split; [lia|exists [d]; reflexivity]]. replace (S (length b) - length b)%nat with 1%nat by lia. exact D.
  - rewrite pv_dec_S in H by exact D. destruct (pv_dec k b) as [[w s]|] eqn:E; [|discriminate].
    assert (Ev : v = d - 128 + 128 * w /\ r = s) by (split; congruence). destruct Ev as [-> ->]. apply IH in E; [|exact Ob]. destruct E as (A & B & C).
    cbn [length]. split; [|split; [lia|]].
    + replace (7 * N.of_nat (S (length b) - length s)) with (7 + 7 * N.of_nat (length b - length s)) by lia.
      rewrite N.pow_add_r. change (2 ^ 7) with 128. set (X := 2 ^ (7 * _)) in *. clearbody X. unfold byte_ok in Od. change (2 ^ 8) with 256 in Od. lia.
    + destruct C as [p ->]. exists (d :: p). reflexivity.
Qed.
Lemma take_ends n b x r : take n b = Some (x, r) -> ends r b.
Proof.
  unfold take. destruct (_ <? _); [discriminate|]. intro H. injection H as <- <-. exists (firstn (N.to_nat n) b).
  symmetry. apply firstn_skipn.
Qed.
Lemma plain_ends wt b v r : bytes_ok b -> plain_dec wt b = Some (v, r) ->
  ends r b /\ forall n, v = VInt n -> n < 2 ^ (7 * N.of_nat (length b)).
Proof.
  intros O. unfold plain_dec, unvarint.
  destruct (wt =? 0).
  { destruct (pv_dec 10 b) as [[n s]|] eqn:E; [|discriminate]. intro H. injection H as <- <-.
    apply pv_dec_len in E; [|exact O]. destruct E as (A & _ & B). split; [exact B|]. intros m H. injection H as <-.
    eapply N.lt_le_trans; [exact A|]. apply N.pow_le_mono_r; lia. }
  destruct (wt =? 1).
  { destruct (take 8 b) as [[x s]|] eqn:E; [|discriminate]. intro H. injection H as <- <-. split; [eapply take_ends; exact E|discriminate]. }
  destruct (wt =? 2).
  { destruct (pv_dec 10 b) as [[n s]|] eqn:E; [|discriminate]. apply pv_dec_len in E; [|exact O]. destruct E as (_ & _ & B).
    destruct (take n s) as [[x t]|] eqn:T; [|discriminate]. intro H. injection H as <- <-. apply take_ends in T.
    split; [eapply ends_trans; eassumption|discriminate]. }
  destruct (wt =? 5); [|discriminate].
  destruct (take 4 b) as [[x s]|] eqn:E; [|discriminate]. intro H. injection H as <- <-. split; [eapply take_ends; exact E|discriminate].
Qed.
Lemma group_ends f : forall num b r, bytes_ok b -> skip_group f num b = Some r -> ends r b.
Proof.
  induction f as [|f IH]; intros num b r O H; [discriminate|]. cbn [skip_group] in H. unfold unvarint in H.
  destruct (pv_dec 10 b) as [[t s]|] eqn:E; [|discriminate]. apply pv_dec_len in E; [|exact O]. destruct E as (_ & _ & B).
  pose proof (ends_ok _ _ B O) as Os.
  destruct ((t / 8 =? 0) || (2 ^ 31 <=? t / 8)); [discriminate|]. destruct (t mod 8 =? 4).
  - destruct (t / 8 =? num); [|discriminate]. injection H as <-. exact B.
  - destruct (t mod 8 =? 3).
    + destruct (skip_group f (t / 8) s) as [u|] eqn:G; [|discriminate].
      apply IH in G; [|exact Os]. pose proof (ends_trans _ _ _ G B) as C. apply IH in H; [|exact (ends_ok _ _ C O)].
      eapply ends_trans; eassumption.
    + destruct (plain_dec (t mod 8) s) as [[v u]|] eqn:G; [|discriminate].
      apply plain_ends in G; [|exact Os]. destruct G as [G _]. pose proof (ends_trans _ _ _ G B) as C.
      apply IH in H; [|exact (ends_ok _ _ C O)]. eapply ends_trans; eassumption.
Qed.
Lemma field_ends b n v r : bytes_ok b -> field_dec b = Some (n, v, r) ->
  ends r b /\ forall x, v = VInt x -> x < 2 ^ (7 * N.of_nat (length b - 1)).
Proof.
  intros O. unfold field_dec, unvarint. destruct (pv_dec 10 b) as [[t s]|] eqn:E; [|discriminate].
  apply pv_dec_len in E; [|exact O]. destruct E as (_ & L & B). pose proof (ends_ok _ _ B O) as Os.
  destruct ((t / 8 =? 0) || (2 ^ 29 <=? t / 8)); [discriminate|]. destruct (t mod 8 =? 3).
  - destruct (skip_group (length s) (t / 8) s) as [u|] eqn:G; [|discriminate]. intro H. injection H as <- <- <-.
    split; [|discriminate]. eapply ends_trans; [eapply group_ends; eassumption|exact B].
  - destruct (plain_dec (t mod 8) s) as [[w u]|] eqn:G; [|discriminate]. intro H. injection H as <- <- <-.
    apply plain_ends in G; [|exact Os]. destruct G as [G N]. split; [eapply ends_trans; eassumption|].
    intros x ->. specialize (N x eq_refl). eapply N.lt_le_trans; [exact N|]. apply N.pow_le_mono_r; lia.
Qed.
Lemma header_len f : forall h b, bytes_ok b -> (length b <= 5)%nat -> fh_len h < 2 ^ 31 ->
  fh_len (fst (pdec_loop set_header f h b)) < 2 ^ 31.
Proof.
  induction f as [|f IH]; intros h b O L H; destruct b as [|d b]; cbn [pdec_loop]; try exact H.
  destruct (field_dec (d :: b)) as [[[n v] r]|] eqn:E; [|exact H]. apply field_ends in E; [|exact O]. destruct E as [B V].
  assert (G : forall h', set_header h n v = Some h' -> fh_len h' < 2 ^ 31).
  { intros h' S. destruct v as [x|x|].
    - specialize (V x eq_refl). assert (X : x < 2 ^ 28).
      { eapply N.lt_le_trans; [exact V|]. apply N.pow_le_mono_r; [lia|]. cbn [length] in *. lia. }
      unfold set_header in S. destruct n as [|[[n|n|]|[n|n|]|]]; injection S as <-; cbn [fh_len]; try exact H.
      unfold u32. rewrite N.mod_small; change (2 ^ 28) with 268435456 in X; change (2 ^ 31) with 2147483648; change (2 ^ 32) with 4294967296; lia.
    - unfold set_header in S. destruct n as [|[[n|n|]|[n|n|]|]]; injection S as <-; exact H.
    - unfold set_header in S. destruct n as [|[[n|n|]|[n|n|]|]]; injection S as <-; exact H. }
  destruct (set_header h n v) as [h'|]; [|exact H]. apply IH.
  - exact (ends_ok _ _ B O).
  - pose proof (ends_len _ _ B). lia.
  - apply G. reflexivity.
Qed.
Lemma decode_S k a m d r : m < 27 -> decodeLength_loop (S k) a m (d :: r) =
  if N.land d 128 =? 0 then Some (N.lor a (u32 (N.shiftl (N.land d 127) m)), r)
  else decodeLength_loop k (N.lor a (u32 (N.shiftl (N.land d 127) m))) (m + 7) r.
Proof. intro H. cbn [decodeLength_loop]. replace (m <? 27) with true by lia. reflexivity. Qed.
Lemma decode_ends f : forall a m r n rest, decodeLength_loop (S f) a m r = Some (n, rest) -> m < 27 -> (length rest < length r)%nat /\ ends rest r.
Proof.
  induction f as [|f IH]; intros a m r n rest H M;
    (destruct r as [|d r]; [cbn [decodeLength_loop] in H; replace (m <? 27) with true in H by lia; discriminate|]);
    rewrite decode_S in H by exact M.
  - destruct (N.land d 128 =? 0); injection H as <- <-; (split; [cbn; lia|exists [d]; reflexivity]).
  - destruct (N.land d 128 =? 0); [injection H as <- <-; (split; [cbn; lia|exists [d]; reflexivity])|].
    destruct (N.ltb_spec (m + 7) 27) as [K|K].
    + apply IH in H; [|exact K]. destruct H as [H1 [p ->]]. split; [cbn [length]; lia|exists (d :: p); reflexivity].
    + cbn [decodeLength_loop] in H. replace (m + 7 <? 27) with false in H by lia. injection H as <- <-.
      split; [cbn; lia|exists [d]; reflexivity].
Qed.
Lemma read_full n b x r : readFull n b = Some (x, r) -> b = x ++ r /\ length x = n.
Proof.
  unfold readFull. destruct (Nat.ltb_spec (length b) n); [discriminate|]. intro E. injection E as <- <-.
  split; [symmetry; apply firstn_skipn|]. rewrite firstn_length. lia.
Qed.
Lemma from_binary b h r : fh_fromBinary pb_header b = Some (h, r) ->
  exists l hd, b = l ++ hd ++ r /\ (0 < length l)%nat /\ h = fst (pdecode set_header (mkFH 0 0 0) hd).
Proof.
  unfold fh_fromBinary. destruct (decodeLength b) as [[n s]|] eqn:E; [|discriminate].
  unfold decodeLength in E. apply decode_ends in E; [|lia]. destruct E as [L [l ->]].
  destruct (readFull (N.to_nat n) s) as [[x t]|] eqn:F; [|discriminate]. intro H. injection H as <- <-.
  apply read_full in F. destruct F as [-> F]. exists l, x. repeat split. rewrite !app_length in L. lia.
Qed.
(** Fewer than seven bytes never bring the reader down. *)
Lemma few_bytes b : bytes_ok b -> (length b < 7)%nat -> read_pack b <> RPanic.
Proof.
  intros O L. unfold read_pack, msg_read. destruct (fh_fromBinary pb_header b) as [[h r]|] eqn:E; [|discriminate].
  apply from_binary in E. destruct E as (l & hd & -> & Ll & ->). rewrite !app_length in L.
  apply bytes_ok_app in O. destruct O as [_ O]. apply bytes_ok_app in O. destruct O as [O _].
  pose proof (header_len (length hd) (mkFH 0 0 0) hd O ltac:(lia) ltac:(reflexivity)) as B.
  change (pdec_loop set_header (length hd) (mkFH 0 0 0) hd) with (pdecode set_header (mkFH 0 0 0) hd) in B.
  destruct (fst (pdecode set_header (mkFH 0 0 0) hd)) as [ty fl n]. cbn [fh_type fh_flow fh_len] in *.
  destruct (ty =? 0); [discriminate|]. destruct ((ty =? PINGREQ) || (ty =? DISCONNECT)).
  { destruct (of_body _ _ _); discriminate. }
  replace (2 ^ 31 <=? n) with false by lia. destruct (readFull (N.to_nat n) r) as [[x s]|]; [|discriminate].
  destruct ((fl =? 0) && (UNSUBSCRIBE <? ty)); [discriminate|]. destruct (of_body _ _ _); discriminate.
Qed.
(** Four bytes are too few for a publication with anything in it. *)
Lemma four_bytes b p rest : (length b <= 4)%nat -> read_pack b = RPack (PPublish p) rest -> p = mkPubl 0 0 [].
Proof.
  intros L. unfold read_pack, msg_read. destruct (fh_fromBinary pb_header b) as [[h r]|] eqn:E; [|discriminate].
  apply from_binary in E. destruct E as (l & hd & -> & Ll & Eh). rewrite !app_length in L.
  destruct (Nat.le_gt_cases (length hd) 1) as [S|S].
  { rewrite short_decode in Eh by exact S. subst h. discriminate. }
  clear Eh. destruct h as [ty fl n]. cbn [fh_type fh_flow fh_len].
  destruct (ty =? 0); [discriminate|].
  assert (K : forall x, (length x <= 1)%nat -> forall q, match of_body ty fl x with Some p => RPack p q | None => RErr end = RPack (PPublish p) rest -> p = mkPubl 0 0 []).
  { intros x Hx q. unfold of_body. rewrite !short_decode by exact Hx.
    repeat match goal with |- context [if ?c then _ else _] => destruct c end; intro H; try discriminate H.
    injection H as <- _. reflexivity. }
  destruct ((ty =? PINGREQ) || (ty =? DISCONNECT)).
  { apply K. cbn. lia. }
  destruct (2 ^ 31 <=? n); [discriminate|]. destruct (readFull (N.to_nat n) r) as [[x s]|] eqn:F; [|discriminate].
  apply read_full in F. destruct F as [-> F]. rewrite app_length in L.
  destruct ((fl =? 0) && (UNSUBSCRIBE <? ty)); [discriminate|]. apply K. lia.
Qed.

(** ** Packets that do not come back *)
Lemma ping_ack : exists b, to_binary (PControl (mkCtl 0 PINGREQ 1 [])) = Some b /\ read_pack b = RPack PPing [].
Proof. exists [4; 8; 6; 16; 1]. split; vm_compute; reflexivity. Qed.
Lemma out_of_step : exists p q b c, to_binary p = Some b /\ sent q /\ to_binary q = Some c /\ read_packs 5 (b ++ c) = ([PPing], false).
Proof.
  exists (PControl (mkCtl 5 PINGREQ 1 [])), (PPublish (mkPubl 1 1 [])), [6; 8; 6; 16; 1; 24; 2; 8; 5], [4; 8; 2; 24; 4; 8; 1; 16; 1].
  split; [vm_compute; reflexivity|]. split; [split; reflexivity|]. split; vm_compute; reflexivity.
Qed.
Lemma disconnect_id : exists id b, id <> 0 /\ to_binary (PDisconnect id) = Some b /\ read_pack b = RPack (PDisconnect 0) [].
Proof. exists 7, [2; 8; 7]. split; [discriminate|]. split; vm_compute; reflexivity. Qed.
Lemma bad_string : exists u, pu_id u = 1 /\ to_binary (PPublish u) = None.
Proof. exists (mkPubl 1 1 [mkPMsg [255] [1] []]). split; vm_compute; reflexivity. Qed.
(** Nine bytes that bring down any reader *)
Definition poison : bytes := [8; 8; 2; 24; 128; 128; 128; 128; 8].
Lemma poisoned ps bs : written ps bs -> exists x, length x = 9%nat /\ bytes_ok x /\ read_packs (S (length ps)) (bs ++ x) = (ps, true).
Proof.
  intro W. exists poison. split; [reflexivity|]. split; [apply bytes_okb_spec; reflexivity|].
  replace (S (length ps)) with (length ps + 1)%nat by lia. rewrite (read_many ps bs W 1 poison).
  assert (R : read_packs 1 poison = ([], true)) by (vm_compute; reflexivity). rewrite R. cbn [fst snd]. now rewrite app_nil_r.
Qed.
Lemma read_all_packs ps bs : written ps bs -> forall fuel, (length ps <= fuel)%nat -> read_packs fuel bs = (ps, false).
Proof.
  intros W fuel H. replace fuel with (length ps + (fuel - length ps))%nat by lia. rewrite <- (app_nil_r bs), (read_many ps bs W).
  rewrite read_nil. cbn [fst snd]. now rewrite app_nil_r.
Qed.
