(** The protobuf encodings of the packets come back (C88, C89). *)
From Coq Require Import Lia ZifyBool ZifyNat ZifyN.
From Verif Require Import M_Bytes M_Wire M_Proto S_Server S_Packet P_Bytes P_Wire.
Open Scope N_scope.

(** ** Integers *)
Lemma pv_enc_S k n : pv_enc (S k) n = if n <? 128 then [n] else (n mod 128 + 128) :: pv_enc k (n / 128).
Proof. reflexivity. Qed.
Lemma pv_dec_S k d r : 128 <= d -> pv_dec (S k) (d :: r) = match pv_dec k r with Some (v, r') => Some (d - 128 + 128 * v, r') | None => None end.
Proof. intro H. cbn [pv_dec]. replace (d <? 128) with false by lia. reflexivity. Qed.
Lemma pv_round k : forall n r, n < 2 ^ (7 * N.of_nat k + 1) -> pv_dec (S k) (pv_enc (S k) n ++ r) = Some (n, r).
Proof.
  induction k as [|k IH]; intros n r H; rewrite pv_enc_S.
  - change (2 ^ (7 * N.of_nat 0 + 1)) with 2 in H.
    replace (n <? 128) with true by lia. cbn [app pv_dec]. replace (n <? 128) with true by lia. replace (1 <? n) with false by lia. reflexivity.
  - destruct (n <? 128) eqn:E.
    + cbn [app]. cbn [pv_dec]. rewrite E. reflexivity.
    + rewrite <- app_comm_cons, pv_dec_S by lia.
      assert (P : n / 128 < 2 ^ (7 * N.of_nat k + 1)).
      { apply N.div_lt_upper_bound; [lia|]. change 128 with (2 ^ 7). rewrite <- N.pow_add_r.
        replace (7 + (7 * N.of_nat k + 1)) with (7 * N.of_nat (S k) + 1) by lia. exact H. }
      rewrite (IH (n / 128) r P). f_equal. f_equal.
      pose proof (N.div_mod' n 128). lia.
Qed.
Lemma varint_round n r : n < 2 ^ 64 -> unvarint (varint n ++ r) = Some (n, r).
Proof. intro H. apply (pv_round 9). exact H. Qed.
Lemma varint_cons n : exists d r, varint n = d :: r.
Proof. unfold varint. cbn [pv_enc]. destruct (n <? 128); eauto. Qed.
Lemma varint_small n : n < 128 -> varint n = [n].
Proof. intro H. unfold varint. cbn [pv_enc]. replace (n <? 128) with true by lia. reflexivity. Qed.
Lemma pv_len k : forall n, (length (pv_enc k n) <= k)%nat.
Proof. induction k as [|k IH]; intro n; cbn [pv_enc]; [reflexivity|]. destruct (n <? 128); cbn [length]; [lia|]. pose proof (IH (n / 128)). lia. Qed.
Lemma take_app b r : take (N.of_nat (length b)) (b ++ r) = Some (b, r).
Proof.
  unfold take. rewrite app_length, Nat2N.id.
  replace (_ <? _) with false by lia.
  rewrite firstn_app_len, skipn_app_len by reflexivity. reflexivity.
Qed.

(** ** Fields *)
Lemma tag_dec num wt r : 0 < num < 2 ^ 29 -> wt < 8 -> unvarint (tag num wt ++ r) = Some (8 * num + wt, r).
Proof. intros A B. apply varint_round. change (2 ^ 29) with 536870912 in A. change (2 ^ 64) with 18446744073709551616. lia. Qed.
Lemma tag_split num wt : wt < 8 -> (8 * num + wt) / 8 = num /\ (8 * num + wt) mod 8 = wt.
Proof. intro H. split; [|]; pose proof (N.div_mod' (8 * num + wt) 8); pose proof (N.mod_lt (8 * num + wt) 8); lia. Qed.
Lemma field_int num n r : 0 < num < 2 ^ 29 -> n < 2 ^ 64 ->
  field_dec ((tag num 0 ++ varint n) ++ r) = Some (num, VInt n, r).
Proof.
  intros A B. rewrite <- app_assoc. unfold field_dec. rewrite tag_dec by (exact A || lia).
  destruct (tag_split num 0 ltac:(lia)) as [-> ->].
  replace (num =? 0) with false by lia. replace (2 ^ 29 <=? num) with false by lia. cbn [orb N.eqb].
  unfold plain_dec. cbn [N.eqb]. rewrite varint_round by exact B. reflexivity.
Qed.
Lemma field_msg num b r : 0 < num < 2 ^ 29 -> N.of_nat (length b) < 2 ^ 64 ->
  field_dec (f_msg num b ++ r) = Some (num, VBytes b, r).
Proof.
  intros A B. unfold f_msg. rewrite <- app_assoc. unfold field_dec. rewrite tag_dec by (exact A || lia).
  destruct (tag_split num 2 ltac:(lia)) as [-> ->].
  replace (num =? 0) with false by lia. replace (2 ^ 29 <=? num) with false by lia.
  change (false || false)%bool with false. change (2 =? 3) with false. cbv iota.
  unfold plain_dec. change (2 =? 0) with false. change (2 =? 1) with false. change (2 =? 2) with true. cbv iota.
  rewrite <- app_assoc, varint_round by exact B. rewrite take_app. reflexivity.
Qed.

(** ** Messages *)
Section DEC.
  Context {M : Type}.
  Variable set : M -> N -> wval -> option M.
  Definition dec (m : M) (b : bytes) (m' : M) : Prop :=
    forall f, (length b <= f)%nat -> pdec_loop set f m b = (m', true).
  Lemma dec_pdecode m b m' : dec m b m' -> pdecode set m b = (m', true).
  Proof. intro H. apply H. reflexivity. Qed.
  Lemma dec_nil m : dec m [] m.
  Proof. intros f _. destruct f; reflexivity. Qed.
  Lemma dec_field m num v m1 fld r m2 : field_dec (fld ++ r) = Some (num, v, r) -> fld <> [] ->
    set m num v = Some m1 -> dec m1 r m2 -> dec m (fld ++ r) m2.
  Proof.
    intros F N S D f L. destruct fld as [|x fld]; [congruence|]. rewrite <- app_comm_cons in *.
    destruct f as [|f]; cbn [length] in L; [lia|]. cbn [pdec_loop]. rewrite F, S. apply D.
    rewrite app_length in L. lia.
  Qed.
  Lemma dec_uint m num n m1 r m2 : 0 < num < 2 ^ 29 -> n < 2 ^ 64 ->
    set m num (VInt n) = Some m1 -> (n = 0 -> m1 = m) -> dec m1 r m2 -> dec m (f_uint num n ++ r) m2.
  Proof.
    intros A B S Z D. unfold f_uint. destruct (N.eqb_spec n 0) as [E|E].
    - rewrite <- (Z E). exact D.
    - eapply dec_field; [apply field_int; assumption| |exact S|exact D].
      intro C. apply app_eq_nil in C. destruct (varint_cons (8 * num + 0)) as (d & l & E2). unfold tag in C. rewrite E2 in C.
      destruct C; discriminate.
  Qed.
  Lemma f_msg_cons num b : f_msg num b <> [].
  Proof.
    intro C. apply app_eq_nil in C. destruct (varint_cons (8 * num + 2)) as (d & l & E2). unfold tag in C. rewrite E2 in C.
    destruct C; discriminate.
  Qed.
  Lemma dec_msg m num b m1 r m2 : 0 < num < 2 ^ 29 -> N.of_nat (length b) < 2 ^ 64 ->
    set m num (VBytes b) = Some m1 -> dec m1 r m2 -> dec m (f_msg num b ++ r) m2.
  Proof. intros A B S D. eapply dec_field; [apply field_msg; assumption|apply f_msg_cons|exact S|exact D]. Qed.
  Lemma dec_bytes m num b m1 r m2 : 0 < num < 2 ^ 29 -> N.of_nat (length b) < 2 ^ 64 ->
    set m num (VBytes b) = Some m1 -> (b = [] -> m1 = m) -> dec m1 r m2 -> dec m (f_bytes num b ++ r) m2.
  Proof.
    intros A B S Z D. unfold f_bytes. destruct b as [|x b].
    - rewrite <- (Z eq_refl). exact D.
    - eapply dec_msg; eassumption.
  Qed.
  Lemma dec_list {A} (f : A -> option bytes) (add : M -> A -> M) num : 0 < num < 2 ^ 29 -> forall l m b,
    enc_list num f l = Some b ->
    (forall m x c, In x l -> f x = Some c -> N.of_nat (length c) <= N.of_nat (length b) -> set m num (VBytes c) = Some (add m x)) ->
    N.of_nat (length b) < 2 ^ 64 -> dec m b (fold_left add l m).
  Proof.
    intro Hn. induction l as [|x l IH]; intros m b E S L; cbn [enc_list] in E.
    - injection E as <-. apply dec_nil.
    - destruct (f x) as [c|] eqn:Fx; [|discriminate]. destruct (enc_list num f l) as [d|] eqn:El; [|discriminate].
      injection E as <-. cbn [fold_left].
      assert (Lc : N.of_nat (length c) <= N.of_nat (length (f_msg num c ++ d))).
      { unfold f_msg. rewrite !app_length. lia. }
      eapply dec_msg; [exact Hn|lia| |].
      + apply S; [left; reflexivity|exact Fx|exact Lc].
      + apply IH; [reflexivity| |].
        * intros m' y e I F Le. apply S; [right; exact I|exact F|]. rewrite app_length. lia.
        * rewrite app_length in L. lia.
  Qed.
End DEC.

(** ** Signed numbers *)
Lemma u32_wide z : u32 (to_unsigned 64 z) = to_unsigned 32 z.
Proof.
  unfold u32, to_unsigned. change (2 ^ Z.of_N 64)%Z with 18446744073709551616%Z. change (2 ^ Z.of_N 32)%Z with 4294967296%Z.
  change (2 ^ 32) with 4294967296.
  assert (A : (0 <= z mod 18446744073709551616 < 18446744073709551616)%Z) by (apply Z.mod_pos_bound; lia).
  assert (B : (0 <= z mod 4294967296 < 4294967296)%Z) by (apply Z.mod_pos_bound; lia).
  apply N2Z.inj. rewrite N2Z.inj_mod by lia. rewrite !Z2N.id by lia.
  change (Z.of_N 4294967296) with 4294967296%Z.
  rewrite (Z.div_mod z 18446744073709551616) at 2 by lia.
  replace (18446744073709551616 * (z / 18446744073709551616) + z mod 18446744073709551616)%Z
    with (z mod 18446744073709551616 + (4294967296 * (z / 18446744073709551616)) * 4294967296)%Z by lia.
  rewrite Z.mod_add by lia. reflexivity.
Qed.
Lemma int32_round z : in32 z -> int32 (to_unsigned 64 z) = z.
Proof. intro H. unfold int32. rewrite u32_wide. apply to_signed_unsigned; [lia|]. exact H. Qed.
Lemma to_unsigned_0 z : in32 z -> to_unsigned 64 z = 0 -> z = 0%Z.
Proof. intros H E. rewrite <- (int32_round z H), E. reflexivity. Qed.

(** ** The header *)
Lemma len_uint num n : num < 16 -> (length (f_uint num n) <= 11)%nat.
Proof.
  intro H. unfold f_uint. destruct (n =? 0); [cbn; lia|]. rewrite app_length. unfold tag.
  rewrite varint_small by lia. pose proof (pv_len 10 n). unfold varint. cbn [length]. lia.
Qed.
Lemma u8_id n : n < 2 ^ 8 -> u8 n = n.
Proof. intro H. apply N.mod_small. exact H. Qed.
Lemma u16_id n : n < 2 ^ 16 -> u16 n = n.
Proof. intro H. apply N.mod_small. exact H. Qed.
Ltac num := change (2 ^ 29) with 536870912; lia.
Ltac pows := change (2 ^ 8) with 256 in *; change (2 ^ 16) with 65536 in *; change (2 ^ 31) with 2147483648 in *;
  change (2 ^ 64) with 18446744073709551616 in *.
Lemma header_dec h : fh_type h < 2 ^ 8 -> fh_flow h < 2 ^ 8 -> fh_len h < 2 ^ 31 ->
  dec set_header (mkFH 0 0 0) (hc_marshal pb_header h) h.
Proof.
  destruct h as [ty fl n]. cbn [fh_type fh_flow fh_len hc_marshal pb_header]. intros A B C.
  eapply dec_uint; [num|pows; lia|cbn [set_header]; rewrite u8_id by exact A; reflexivity|intros ->; reflexivity|].
  eapply dec_uint; [num|pows; lia|cbn [set_header fh_type fh_flow fh_len]; rewrite u8_id by exact B; reflexivity|intros ->; reflexivity|].
  assert (S : to_signed 32 n = Z.of_N n).
  { unfold to_signed. replace (n <? 2 ^ (32 - 1)) with true; [reflexivity|]. change (2 ^ (32 - 1)) with (2 ^ 31). lia. }
  assert (R : u32 (to_unsigned 64 (to_signed 32 n)) = n).
  { rewrite u32_wide. apply to_unsigned_signed; [lia|]. pows. change (2 ^ 32) with 4294967296. lia. }
  unfold f_int. rewrite <- (app_nil_r (f_uint 3 _)).
  eapply dec_uint; [num|apply to_unsigned_bound|cbn [set_header fh_type fh_flow fh_len]; rewrite R; reflexivity| |apply dec_nil].
  intro Z. rewrite Z in R. change (u32 0) with 0 in R. rewrite <- R. reflexivity.
Qed.
Lemma header_ok : hcodec_ok pb_header.
Proof.
  intros h A B C. split.
  - pose proof (dec_pdecode _ _ _ _ (header_dec h A B C)) as D.
    change (fst (pdecode set_header (mkFH 0 0 0) (hc_marshal pb_header h)) = h). rewrite D. reflexivity.
  - cbn [hc_marshal pb_header]. unfold f_int. rewrite !app_length.
    pose proof (len_uint 1 (fh_type h) ltac:(lia)). pose proof (len_uint 2 (fh_flow h) ltac:(lia)).
    pose proof (len_uint 3 (to_unsigned 64 (to_signed 32 (fh_len h))) ltac:(lia)).
    change (2 ^ 28) with 268435456. lia.
Qed.

(** ** The bodies *)
Notation shorter b := (N.of_nat (length b) < 2 ^ 64).
Lemma f_bytes_len num b : (length b <= length (f_bytes num b))%nat.
Proof. unfold f_bytes. destruct b; [cbn; lia|]. unfold f_msg. rewrite !app_length. lia. Qed.
Ltac int32s := let Z := fresh in eapply dec_uint; [num|apply to_unsigned_bound|cbn; rewrite int32_round by assumption; reflexivity
  |intro Z; apply to_unsigned_0 in Z; [rewrite Z; reflexivity|assumption]|].
Ltac bools b := eapply dec_uint; [num|pows; destruct b; lia|cbn; replace (negb _) with b by (destruct b; reflexivity); reflexivity
  |destruct b; [discriminate|reflexivity]|].
Lemma connect_dec c b : sent (PConnect c) -> enc_connect c = Some b -> shorter b -> dec set_connect connect_new b c.
Proof.
  destruct c as [a1 a2 a3 a4 a5 a6 a7 a8 a9 a10 a11]. cbn [sent co_version co_alive co_key co_dur co_bytes co_count].
  intros (I1 & I2 & I3 & I4 & I5 & I6) E L. unfold enc_connect in E.
  cbn [co_version co_insecure co_client co_alive co_clean co_key co_user co_pass co_dur co_bytes co_count] in E.
  destruct (utf8 a3) eqn:U1; [|discriminate]. destruct (utf8 a7) eqn:U2; [|discriminate]. injection E as <-.
  rewrite !app_length in L.
  pose proof (f_bytes_len 3 a3). pose proof (f_bytes_len 7 a7). pose proof (f_bytes_len 8 a8).
  assert (shorter a3) by lia. assert (shorter a7) by lia. assert (shorter a8) by lia. clear L.
  unfold f_int, f_bool, connect_new.
  int32s. bools a2.
  eapply dec_bytes; [num|assumption|cbn; unfold str; rewrite U1; reflexivity|intros ->; reflexivity|].
  int32s. bools a5. int32s.
  eapply dec_bytes; [num|assumption|cbn; unfold str; rewrite U2; reflexivity|intros ->; reflexivity|].
  eapply dec_bytes; [num|assumption|cbn; reflexivity|intros ->; reflexivity|].
  int32s. int32s. rewrite <- (app_nil_r (f_uint 11 _)). int32s. apply dec_nil.
Qed.
Lemma pubmsg_dec m b : enc_pubmsg m = Some b -> shorter b -> dec set_pubmsg (mkPMsg [] [] []) b m.
Proof.
  destruct m as [t p l]. unfold enc_pubmsg. cbn [pm_top pm_pay pm_ttl].
  destruct (utf8 t) eqn:U1; [|discriminate]. destruct (utf8 l) eqn:U2; [|discriminate]. intros E L. injection E as <-.
  rewrite !app_length in L. pose proof (f_bytes_len 1 t). pose proof (f_bytes_len 2 p). pose proof (f_bytes_len 3 l).
  eapply dec_bytes; [num|lia|cbn; unfold str; rewrite U1; reflexivity|intros ->; reflexivity|].
  eapply dec_bytes; [num|lia|cbn; reflexivity|intros ->; reflexivity|].
  rewrite <- (app_nil_r (f_bytes 3 _)).
  eapply dec_bytes; [num|lia|cbn; unfold str; rewrite U2; reflexivity|intros ->; reflexivity|apply dec_nil].
Qed.
Lemma relayreq_dec r b : enc_relayreq r = Some b -> shorter b -> dec set_relayreq (mkRR [] []) b r.
Proof.
  destruct r as [t l]. unfold enc_relayreq. cbn [rr_topic rr_last].
  destruct (utf8 t) eqn:U1; [|discriminate]. destruct (utf8 l) eqn:U2; [|discriminate]. intros E L. injection E as <-.
  rewrite !app_length in L. pose proof (f_bytes_len 1 t). pose proof (f_bytes_len 2 l).
  eapply dec_bytes; [num|lia|cbn; unfold str; rewrite U1; reflexivity|intros ->; reflexivity|].
  rewrite <- (app_nil_r (f_bytes 2 _)).
  eapply dec_bytes; [num|lia|cbn; unfold str; rewrite U2; reflexivity|intros ->; reflexivity|apply dec_nil].
Qed.
Lemma subscr_dec s b : subscription_ok s -> enc_subscr s = Some b -> shorter b -> dec set_subscr (mkSu 0 0 []) b s.
Proof.
  destruct s as [m d t]. intros [A B] E L. unfold enc_subscr in E. cbn [su_mode su_delay su_topic] in *.
  destruct (utf8 t) eqn:U1; [|discriminate]. injection E as <-.
  rewrite !app_length in L. pose proof (f_bytes_len 3 t). unfold f_int in *.
  eapply dec_uint; [num|pows; lia|cbn; rewrite u8_id by exact A; reflexivity|intros ->; reflexivity|].
  int32s. rewrite <- (app_nil_r (f_bytes 3 _)).
  eapply dec_bytes; [num|lia|cbn; unfold str; rewrite U1; reflexivity|intros ->; reflexivity|apply dec_nil].
Qed.
Lemma fold_pub i m l : forall a, fold_left (fun p x => mkPubl (pu_id p) (pu_mode p) (pu_msgs p ++ [x])) l (mkPubl i m a) = mkPubl i m (a ++ l).
Proof. induction l as [|x l IH]; intro a; cbn; [now rewrite app_nil_r|]. rewrite IH, <- app_assoc. reflexivity. Qed.
Lemma fold_rel i l : forall a, fold_left (fun p x => mkRel (re_id p) (re_reqs p ++ [x])) l (mkRel i a) = mkRel i (a ++ l).
Proof. induction l as [|x l IH]; intro a; cbn; [now rewrite app_nil_r|]. rewrite IH, <- app_assoc. reflexivity. Qed.
Lemma fold_subs i l : forall a, fold_left (fun p x => mkSubs (sb_id p) (sb_subs p ++ [x])) l (mkSubs i a) = mkSubs i (a ++ l).
Proof. induction l as [|x l IH]; intro a; cbn; [now rewrite app_nil_r|]. rewrite IH, <- app_assoc. reflexivity. Qed.
Lemma publish_dec p b : sent (PPublish p) -> enc_publish p = Some b -> shorter b -> dec set_publish (mkPubl 0 0 []) b p.
Proof.
  destruct p as [i m l]. intros [A B] E L. unfold enc_publish, enc_with in E. cbn [pu_id pu_mode pu_msgs] in *.
  destruct (enc_list 3 enc_pubmsg l) as [e|] eqn:El; [|discriminate]. cbn [option_map] in E. injection E as <-.
  rewrite <- app_assoc. rewrite !app_length in L.
  eapply dec_uint; [num|pows; lia|cbn; rewrite u16_id by exact A; reflexivity|intros ->; reflexivity|].
  eapply dec_uint; [num|pows; lia|cbn; rewrite u8_id by exact B; reflexivity|intros ->; reflexivity|].
  pose proof (fold_pub i m l []) as F. rewrite app_nil_l in F. rewrite <- F.
  eapply dec_list with (num := 3); [num|exact El| |lia].
  intros p x c I Ec Lc. cbn [set_publish].
  rewrite (dec_pdecode _ _ _ _ (pubmsg_dec x c Ec ltac:(lia))). reflexivity.
Qed.
Lemma relay_dec p b : sent (PRelay p) -> enc_relay p = Some b -> shorter b -> dec set_relay (mkRel 0 []) b p.
Proof.
  destruct p as [i l]. intros A E L. unfold enc_relay, enc_with in E. cbn [sent re_id re_reqs] in *.
  destruct (enc_list 2 enc_relayreq l) as [e|] eqn:El; [|discriminate]. cbn [option_map] in E. injection E as <-.
  rewrite !app_length in L.
  eapply dec_uint; [num|pows; lia|cbn; rewrite u16_id by exact A; reflexivity|intros ->; reflexivity|].
  pose proof (fold_rel i l []) as F. rewrite app_nil_l in F. rewrite <- F.
  eapply dec_list with (num := 2); [num|exact El| |lia].
  intros p x c I Ec Lc. cbn [set_relay].
  rewrite (dec_pdecode _ _ _ _ (relayreq_dec x c Ec ltac:(lia))). reflexivity.
Qed.
Lemma subscribe_dec p b : sent (PSubscribe p) -> enc_subscribe p = Some b -> shorter b -> dec set_subscribe (mkSubs 0 []) b p.
Proof.
  destruct p as [i l]. intros [A G] E L. unfold enc_subscribe, enc_with in E. cbn [sb_id sb_subs] in *.
  destruct (enc_list 2 enc_subscr l) as [e|] eqn:El; [|discriminate]. cbn [option_map] in E. injection E as <-.
  rewrite !app_length in L.
  eapply dec_uint; [num|pows; lia|cbn; rewrite u16_id by exact A; reflexivity|intros ->; reflexivity|].
  pose proof (fold_subs i l []) as F. rewrite app_nil_l in F. rewrite <- F.
  eapply dec_list with (num := 2); [num|exact El| |lia].
  intros p x c I Ec Lc. cbn [set_subscribe]. rewrite Forall_forall in G.
  rewrite (dec_pdecode _ _ _ _ (subscr_dec x c (G x I) Ec ltac:(lia))). reflexivity.
Qed.
Lemma control_dec i ty fl m : i < 2 ^ 16 -> shorter m ->
  dec set_control (mkCtl 0 ty fl []) (enc_control (mkCtl i ty fl m)) (mkCtl i ty fl m).
Proof.
  intros A L. unfold enc_control. cbn [ct_id ct_msg].
  eapply dec_uint; [num|pows; lia|cbn; rewrite u16_id by exact A; reflexivity|intros ->; reflexivity|].
  rewrite <- (app_nil_r (f_bytes 2 _)).
  eapply dec_bytes; [num|exact L|cbn; reflexivity|intros ->; reflexivity|apply dec_nil].
Qed.
Lemma connack_round a : ca_code a < 2 ^ 8 -> in32 (ca_epoch a) -> in32 (ca_conn a) -> dec_connack (enc_connack a) = a.
Proof.
  intros A B C. unfold dec_connack. erewrite dec_pdecode; [reflexivity|]. destruct a as [r e n]. cbn [ca_code ca_epoch ca_conn] in *.
  unfold enc_connack, f_int. cbn [ca_code ca_epoch ca_conn].
  eapply dec_uint; [num|pows; lia|cbn; rewrite u8_id by exact A; reflexivity|intros ->; reflexivity|].
  int32s. rewrite <- (app_nil_r (f_uint 3 _)). int32s. apply dec_nil.
Qed.

(** ** Whole packets *)
Lemma msg_len ty fl b : (length b <= length (msg_encode pb_header ty fl b))%nat.
Proof. unfold msg_encode. rewrite app_length. lia. Qed.
Lemma read_body ty fl body rest p : sendable ty fl body -> of_body ty fl body = Some p ->
  read_pack (msg_encode pb_header ty fl body ++ rest) = RPack p rest.
Proof.
  intros S O. unfold read_pack. rewrite (read_encode pb_header ty fl body rest header_ok S), O. reflexivity.
Qed.
Lemma wide (b : bytes) : N.of_nat (length b) < 2 ^ 31 -> shorter b.
Proof. pows. lia. Qed.
Lemma framed p b : sent p -> to_binary p = Some b -> N.of_nat (length b) < 2 ^ 31 ->
  exists ty fl body, b = msg_encode pb_header ty fl body /\ sendable ty fl body /\ of_body ty fl body = Some p.
Proof.
  intros S E L.
  assert (K : forall ty (body : bytes) q, b = msg_encode pb_header ty 0 body -> (ty = CONNECT \/ ty = PUBLISH \/ ty = RELAY \/ ty = SUBSCRIBE \/ ty = UNSUBSCRIBE) ->
              (N.of_nat (length body) < 2 ^ 64 -> of_body ty 0 body = Some q) ->
              exists ty fl body, b = msg_encode pb_header ty fl body /\ sendable ty fl body /\ of_body ty fl body = Some q).
  { intros ty body q -> T O. pose proof (msg_len ty 0 body).
    exists ty, 0, body. split; [reflexivity|]. split; [|apply O; pows; lia].
    assert (1 <= ty <= 5) by (unfold CONNECT, PUBLISH, RELAY, SUBSCRIBE, UNSUBSCRIBE in T; lia).
    unfold sendable, PINGREQ, DISCONNECT. pows. repeat split; lia. }
  destruct p as [c|p|r|s|s| |id|c]; cbn [to_binary] in E.
  - destruct (enc_connect c) as [e|] eqn:Ec; [|discriminate]. injection E as <-.
    eapply K; [reflexivity|tauto|]. intro W. change (of_body CONNECT 0 e) with (Some (PConnect (fst (pdecode set_connect connect_new e)))).
    rewrite (dec_pdecode _ _ _ _ (connect_dec c e S Ec W)). reflexivity.
  - destruct (enc_publish p) as [e|] eqn:Ec; [|discriminate]. injection E as <-.
    eapply K; [reflexivity|tauto|]. intro W. change (of_body PUBLISH 0 e) with (Some (PPublish (fst (pdecode set_publish (mkPubl 0 0 []) e)))).
    rewrite (dec_pdecode _ _ _ _ (publish_dec p e S Ec W)). reflexivity.
  - destruct (enc_relay r) as [e|] eqn:Ec; [|discriminate]. injection E as <-.
    eapply K; [reflexivity|tauto|]. intro W. change (of_body RELAY 0 e) with (Some (PRelay (fst (pdecode set_relay (mkRel 0 []) e)))).
    rewrite (dec_pdecode _ _ _ _ (relay_dec r e S Ec W)). reflexivity.
  - destruct (enc_subscribe s) as [e|] eqn:Ec; [|discriminate]. injection E as <-.
    eapply K; [reflexivity|tauto|]. intro W. change (of_body SUBSCRIBE 0 e) with (Some (PSubscribe (fst (pdecode set_subscribe (mkSubs 0 []) e)))).
    rewrite (dec_pdecode _ _ _ _ (subscribe_dec s e S Ec W)). reflexivity.
  - destruct (enc_subscribe s) as [e|] eqn:Ec; [|discriminate]. injection E as <-.
    eapply K; [reflexivity|tauto|]. intro W. change (of_body UNSUBSCRIBE 0 e) with (Some (PUnsubscribe (fst (pdecode set_subscribe (mkSubs 0 []) e)))).
    rewrite (dec_pdecode _ _ _ _ (subscribe_dec s e S Ec W)). reflexivity.
  - injection E as <-. exists PINGREQ, 0, []. split; [reflexivity|]. split; [|reflexivity]. unfold sendable, PINGREQ, DISCONNECT. cbn [length]. repeat split; try reflexivity; lia.
  - cbn [sent] in S. subst id. injection E as <-. exists DISCONNECT, 0, []. split; [reflexivity|]. split; [|reflexivity].
    unfold sendable, PINGREQ, DISCONNECT. cbn [length]. repeat split; try reflexivity; lia.
  - destruct c as [i ty fl m]. cbn [sent ct_id ct_type ct_flow] in S. destruct S as [A B].
    assert (H : ctl_head (mkCtl i ty fl m) = (ty, fl) /\ 1 <= ty <= 5 /\ 1 <= fl <= 5).
    { unfold ctl_head. cbn [ct_flow ct_type]. destruct B as [[B C]|[B C]].
      - subst fl. change (1 =? 1) with true. cbv iota. replace (1 <=? ty) with true by lia. replace (ty <=? 6) with true by lia. cbn [andb].
        repeat split; lia.
      - replace (fl =? 1) with false by lia. replace (2 <=? fl) with true by lia. replace (fl <=? 5) with true by lia. cbn [andb].
        subst ty. unfold PUBLISH. repeat split; lia. }
    destruct H as (H & T & F). rewrite H in E. replace (ty =? 0) with false in E by lia. injection E as <-.
    pose proof (msg_len ty fl (enc_control (mkCtl i ty fl m))) as M.
    exists ty, fl, (enc_control (mkCtl i ty fl m)). split; [reflexivity|]. split.
    + unfold sendable, PINGREQ, DISCONNECT. pows. repeat split; lia.
    + unfold of_body, PINGREQ, DISCONNECT. replace (ty =? 6) with false by lia. replace (ty =? 7) with false by lia.
      replace (fl =? 0) with false by lia. cbn [negb].
      assert (W : shorter m).
      { unfold enc_control in M. cbn [ct_id ct_msg] in M. rewrite app_length in M. pose proof (f_bytes_len 2 m).
        pows. unfold enc_control in L. cbn [ct_id ct_msg] in L. lia. }
      rewrite (dec_pdecode _ _ _ _ (control_dec i ty fl m A W)). reflexivity.
Qed.
Lemma read_back p b rest : sent p -> to_binary p = Some b -> N.of_nat (length b) < 2 ^ 31 -> read_pack (b ++ rest) = RPack p rest.
Proof. intros S E L. destruct (framed p b S E L) as (ty & fl & body & -> & F & O). apply read_body; assumption. Qed.
Lemma read_many ps bs : written ps bs -> forall fuel rest, read_packs (length ps + fuel) (bs ++ rest) =
  (ps ++ fst (read_packs fuel rest), snd (read_packs fuel rest)).
Proof.
  induction 1 as [|p b ps bs S E L W IH]; intros fuel rest.
  - cbn [length Nat.add app]. destruct (read_packs fuel rest); reflexivity.
  - cbn [length Nat.add read_packs]. rewrite <- app_assoc, (read_back p b _ S E L), IH. reflexivity.
Qed.

(** ** Cut streams *)
Lemma header_short h : (length (hc_marshal pb_header h) < 128)%nat.
Proof.
  cbn [hc_marshal pb_header]. unfold f_int. rewrite !app_length.
  pose proof (len_uint 1 (fh_type h) ltac:(lia)). pose proof (len_uint 2 (fh_flow h) ltac:(lia)).
  pose proof (len_uint 3 (to_unsigned 64 (to_signed 32 (fh_len h))) ltac:(lia)). lia.
Qed.
Lemma encode_small n : n < 128 -> encodeLength n = [n].
Proof.
  intro H. unfold encodeLength. cbn [encodeLength_loop]. rewrite N.div_small by exact H. cbn [N.ltb N.compare N.eqb].
  rewrite N.mod_small by exact H. reflexivity.
Qed.
Lemma msg_cut ty fl body k : sendable ty fl body -> (k < length (msg_encode pb_header ty fl body))%nat ->
  msg_read pb_header (firstn k (msg_encode pb_header ty fl body)) = RdErr.
Proof.
  intros (Hty & Hfl & Hb & Hemp & Hf0). unfold msg_encode, fh_pack. cbn [fh_type fh_flow fh_len].
  unfold u32. rewrite (N.mod_small (N.of_nat (length body))) by (pows; change (2 ^ 32) with 4294967296; lia).
  destruct (header_ok (mkFH ty fl (N.of_nat (length body)))) as [Hrt _]; try (cbn; lia).
  pose proof (header_short (mkFH ty fl (N.of_nat (length body)))) as Hs.
  set (m := hc_marshal pb_header _) in *. rewrite encode_small by lia. cbn [app length]. rewrite app_length. intro K.
  destruct k as [|j]; [reflexivity|]. cbn [firstn]. unfold msg_read, fh_fromBinary.
  replace (decodeLength (N.of_nat (length m) :: firstn j (m ++ body))) with (Some (N.of_nat (length m), firstn j (m ++ body))).
  2:{ symmetry. pose proof (decode_encode (N.of_nat (length m)) (firstn j (m ++ body))) as D.
      rewrite encode_small in D by lia. apply D. change (2 ^ 28) with 268435456. lia. }
  rewrite Nat2N.id. unfold readFull at 1.
  destruct (Nat.ltb_spec (length (firstn j (m ++ body))) (length m)) as [A|A]; [reflexivity|].
  rewrite firstn_length, app_length in A. rewrite firstn_app, (firstn_all2 m) by lia.
  rewrite firstn_app_len, skipn_app_len, Hrt by reflexivity. cbn [fh_type fh_flow fh_len].
  destruct (N.eqb_spec ty 0); [lia|].
  destruct (N.eqb_spec ty PINGREQ) as [Ep|Ep].
  { rewrite Hemp in K by (left; exact Ep). cbn [length] in K. lia. }
  destruct (N.eqb_spec ty DISCONNECT) as [Ed|Ed].
  { rewrite Hemp in K by (right; exact Ed). cbn [length] in K. lia. }
  cbn [orb]. destruct (N.leb_spec (2 ^ 31) (N.of_nat (length body))); [lia|].
  rewrite Nat2N.id. unfold readFull. rewrite firstn_length.
  destruct (Nat.ltb_spec (Nat.min (j - length m) (length body)) (length body)); [reflexivity|lia].
Qed.
Lemma pack_cut p b k : sent p -> to_binary p = Some b -> N.of_nat (length b) < 2 ^ 31 -> (k < length b)%nat ->
  read_pack (firstn k b) = RErr.
Proof.
  intros S E L K. destruct (framed p b S E L) as (ty & fl & body & -> & F & O). unfold read_pack. rewrite msg_cut by assumption. reflexivity.
Qed.
Lemma read_nil fuel : read_packs fuel [] = ([], false).
Proof. destruct fuel; reflexivity. Qed.
Lemma stream_cut ps bs : written ps bs -> forall k fuel, (length ps <= fuel)%nat ->
  exists ps1 ps2 bs1, ps = ps1 ++ ps2 /\ written ps1 bs1 /\ (length bs1 <= k)%nat /\ read_packs fuel (firstn k bs) = (ps1, false) /\
    match ps2 with [] => True | p :: _ => exists b, to_binary p = Some b /\ (k < length bs1 + length b)%nat end.
Proof.
  induction 1 as [|p b ps bs S E L W IH]; intros k fuel Hf.
  - exists [], [], []. rewrite firstn_nil, read_nil. repeat split; [constructor|cbn; lia].
  - destruct (Nat.lt_ge_cases k (length b)) as [K|K].
    + exists [], (p :: ps), []. split; [reflexivity|]. split; [constructor|]. split; [cbn; lia|]. split.
      * rewrite firstn_app. replace (k - length b)%nat with 0%nat by lia. rewrite firstn_O, app_nil_r.
        destruct fuel as [|fuel]; [reflexivity|]. cbn [read_packs]. rewrite (pack_cut p b k S E L K). reflexivity.
      * exists b. split; [exact E|exact K].
    + cbn [length] in Hf. destruct fuel as [|fuel]; [lia|].
      destruct (IH (k - length b)%nat fuel ltac:(lia)) as (ps1 & ps2 & bs1 & -> & W1 & K1 & R & N).
      exists (p :: ps1), ps2, (b ++ bs1). split; [reflexivity|]. split; [constructor; assumption|].
      rewrite app_length. split; [lia|]. split.
      * rewrite firstn_app, firstn_all2 by lia. cbn [read_packs]. rewrite (read_back p b _ S E L), R. reflexivity.
      * destruct ps2 as [|q ps2]; [exact I|]. destruct N as (c & Ec & Lc). exists c. split; [exact Ec|lia].
Qed.

(** ** Strings *)
Lemma enc_list_some {A} num (f : A -> option bytes) l : enc_list num f l <> None <-> Forall (fun x => f x <> None) l.
Proof.
  induction l as [|x l IH]; cbn [enc_list]; [split; [constructor|discriminate]|].
  destruct (f x) as [b|] eqn:F.
  - destruct (enc_list num f l) as [c|].
    + split; [|discriminate]. intros _. constructor; [rewrite F; discriminate|]. apply IH. discriminate.
    + split; [congruence|]. intro H. inversion H; subst. tauto.
  - split; [congruence|]. intro H. inversion H; subst. congruence.
Qed.
Lemma enc_with_some pre o : enc_with pre o <> None <-> o <> None.
Proof. destruct o; cbn; split; intros H E; (discriminate E || (apply H; reflexivity)). Qed.
Notation valid := (Forall (fun s => utf8 s = true)).
Lemma map_some {A B} (f : A -> B) o : option_map f o <> None <-> o <> None.
Proof. destruct o; cbn; split; intros H E; (discriminate E || (apply H; reflexivity)). Qed.
Lemma valid_flat {A} (f : A -> list bytes) l : valid (flat_map f l) <-> Forall (fun x => valid (f x)) l.
Proof. induction l as [|x l IH]; cbn [flat_map]; [split; constructor|]. rewrite Forall_app, Forall_cons_iff, IH. reflexivity. Qed.
Lemma two (a b : bytes) {X} (x : X) : (if utf8 a && utf8 b then Some x else None) <> None <-> valid [a; b].
Proof. rewrite !Forall_cons_iff. destruct (utf8 a), (utf8 b); cbn; split; intro H;
  try discriminate; try (exfalso; apply H; reflexivity); try (destruct H as (A & B & C); discriminate). repeat split; constructor. Qed.
Lemma encodes p : to_binary p <> None <-> valid (strings p).
Proof.
  destruct p as [c|p|r|s|s| |id|c]; cbn [to_binary strings]; rewrite ?map_some.
  - apply two.
  - unfold enc_publish. rewrite enc_with_some, enc_list_some, valid_flat.
    split; apply Forall_impl; intros m; unfold enc_pubmsg; apply two.
  - unfold enc_relay. rewrite enc_with_some, enc_list_some, valid_flat.
    split; apply Forall_impl; intros m; unfold enc_relayreq; apply two.
  - unfold enc_subscribe. rewrite enc_with_some, enc_list_some, Forall_map.
    split; apply Forall_impl; intros m; unfold enc_subscr; destruct (utf8 (su_topic m)); intro H; (discriminate || reflexivity || (exfalso; apply H; reflexivity)).
  - unfold enc_subscribe. rewrite enc_with_some, enc_list_some, Forall_map.
    split; apply Forall_impl; intros m; unfold enc_subscr; destruct (utf8 (su_topic m)); intro H; (discriminate || reflexivity || (exfalso; apply H; reflexivity)).
  - split; [constructor|discriminate].
  - split; [constructor|discriminate].
  - split; [constructor|]. destruct (ctl_head c) as [ty fl]. destruct (ty =? 0); discriminate.
Qed.

(** ** Few bytes *)
Lemma short_field b : (length b <= 1)%nat -> field_dec b = None.
Proof.
  destruct b as [|d [|e b]]; [reflexivity| |cbn; lia]. intros _. unfold field_dec, unvarint. cbn [pv_dec].
  destruct (d <? 128); [|reflexivity]. destruct ((d / 8 =? 0) || (2 ^ 29 <=? d / 8)); [reflexivity|].
  cbn [length skip_group]. destruct (d mod 8 =? 3); [reflexivity|].
  unfold plain_dec, unvarint. cbn [pv_dec take length]. 
  destruct (d mod 8 =? 0); [reflexivity|]. destruct (d mod 8 =? 1); [reflexivity|]. destruct (d mod 8 =? 2); [reflexivity|].
  destruct (d mod 8 =? 5); reflexivity.
Qed.
Lemma short_decode {M} (set : M -> N -> wval -> option M) m b : (length b <= 1)%nat -> fst (pdecode set m b) = m.
Proof.
  intro H. unfold pdecode. pose proof (short_field b H) as F. destruct b as [|d b]; [reflexivity|].
  cbn [length pdec_loop]. rewrite F. reflexivity.
Qed.
