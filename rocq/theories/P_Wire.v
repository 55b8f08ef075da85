(** Lemmas about [M_Wire]. *)
From Verif Require Import M_Bytes P_Bytes M_Wire S_Server.
From Coq Require Import Lia ZifyN ZifyNat ZifyBool.
Open Scope N_scope.

Lemma land_127 d : N.land d 127 = d mod 128.
Proof. change 127 with (N.ones 7). rewrite N.land_ones. reflexivity. Qed.
Lemma lor_128 d : d < 128 -> N.lor d 128 = d + 128.
Proof.
  intros H. rewrite <- (N.mod_small d (2 ^ 7)) at 1 by exact H. rewrite <- N.land_ones.
  change 128 with (N.shiftl 1 7) at 1. symmetry. rewrite <- N.lxor_lor.
  2:{ apply N.bits_inj. intros i. rewrite !N.land_spec, N.bits_0.
      destruct (N.lt_ge_cases i 7) as [Hi|Hi].
      - rewrite (N.shiftl_spec_low 1 7 i Hi), andb_false_r. reflexivity.
      - rewrite (N.ones_spec_high 7 i Hi), andb_false_r. reflexivity. }
  rewrite <- N.add_nocarry_lxor.
  - rewrite N.land_ones, N.mod_small by exact H. reflexivity.
  - apply N.bits_inj. intros i. rewrite !N.land_spec, N.bits_0.
    destruct (N.lt_ge_cases i 7) as [Hi|Hi].
    + rewrite (N.shiftl_spec_low 1 7 i Hi), andb_false_r. reflexivity.
    + rewrite (N.ones_spec_high 7 i Hi), andb_false_r. reflexivity.
Qed.

(** The digits of a number, low first. *)
Lemma land_128_small d : d < 128 -> N.land d 128 = 0.
Proof.
  intros H. apply N.bits_inj. intros i. rewrite N.land_spec, N.bits_0.
  change 128 with (2 ^ 7). rewrite N.pow2_bits_eqb.
  destruct (N.eqb_spec 7 i) as [<-|]; [|now rewrite andb_false_r].
  rewrite andb_true_r. rewrite <- (N.mod_small d (2 ^ 7)) by exact H.
  apply N.mod_pow2_bits_high. lia.
Qed.
Lemma land_128_big d : d < 128 -> N.land (N.lor d 128) 128 <> 0.
Proof.
  intros H E. rewrite N.land_comm, N.land_lor_distr_r in E. apply N.lor_eq_0_iff in E.
  destruct E as [_ E]. discriminate.
Qed.
Lemma lor_mod d : d < 128 -> N.land (N.lor d 128) 127 = d.
Proof. intros H. rewrite land_127, lor_128 by exact H. lia. Qed.

(** Or with bits that are free is addition. *)
Lemma lor_shift a d m : a < 2 ^ m -> N.lor a (N.shiftl d m) = a + d * 2 ^ m.
Proof.
  intros H.
  assert (D : N.land a (N.shiftl d m) = 0).
  { apply N.bits_inj. intros i. rewrite N.land_spec, N.bits_0.
    destruct (N.lt_ge_cases i m) as [Hi|Hi].
    - rewrite (N.shiftl_spec_low d m i Hi), andb_false_r. reflexivity.
    - rewrite <- (N.mod_small a (2 ^ m)) by exact H. rewrite N.mod_pow2_bits_high by exact Hi. reflexivity. }
  rewrite <- N.lxor_lor by exact D. rewrite <- N.add_nocarry_lxor by exact D.
  rewrite N.shiftl_mul_pow2. reflexivity.
Qed.

(** One round of decoding consumes one digit. *)
Lemma dec_enc k : forall fuel a len m rest, a < 2 ^ m -> (k <= fuel)%nat -> len < 128 ^ N.of_nat k ->
  (0 < k)%nat -> m = 28 - 7 * N.of_nat k -> (k <= 4)%nat ->
  decodeLength_loop (S k) a m (encodeLength_loop fuel len ++ rest) = Some (a + len * 2 ^ m, rest).
Proof.
  induction k as [|k IH]; intros fuel a len m rest Ha Hf Hl Hk Hm H4; [lia|].
  destruct fuel as [|fuel]; [lia|].
  remember (S k) as sk. cbn [encodeLength_loop decodeLength_loop].
  assert (Hm27 : m < 27) by lia.
  destruct (N.ltb_spec m 27) as [_|]; [|lia].
  assert (Hd : len mod 128 < 128) by (apply N.mod_lt; lia).
  assert (Hp : 2 ^ m * 128 <= 2 ^ 28).
  { change 128 with (2 ^ 7). rewrite <- N.pow_add_r. apply N.pow_le_mono_r; lia. }
  assert (Hsm : forall d, d < 128 -> u32 (N.shiftl d m) = N.shiftl d m).
  { intros d Hd'. unfold u32. apply N.mod_small. rewrite N.shiftl_mul_pow2.
    assert (d * 2 ^ m < 128 * 2 ^ m) by (apply N.mul_lt_mono_pos_r; [apply N.neq_0_lt_0, N.pow_nonzero; lia|exact Hd']).
    change (2 ^ 32) with (2 ^ 28 * 16). lia. }
  destruct (N.ltb_spec 0 (len / 128)) as [Hq|Hq].
  - destruct (N.eqb_spec (len / 128) 0) as [E0|E0]; [lia|].
    rewrite <- app_comm_cons. cbv beta iota zeta.
    destruct (N.eqb_spec (N.land (N.lor (len mod 128) 128) 128) 0) as [Eb|_].
    { exfalso. exact (land_128_big _ Hd Eb). }
    rewrite lor_mod by exact Hd. rewrite Hsm by exact Hd. rewrite lor_shift by exact Ha.
    destruct k as [|k'].
    { exfalso. subst sk. change (128 ^ N.of_nat 1) with 128 in Hl. rewrite N.div_small in Hq by lia. lia. }
    subst sk. rewrite (IH fuel).
    + f_equal. f_equal. rewrite N.pow_add_r.
      rewrite (N.div_mod' len 128) at 3. lia.
    + rewrite N.pow_add_r. change (2 ^ 7) with 128. nia.
    + lia.
    + apply N.div_lt_upper_bound; [lia|]. replace (N.of_nat (S (S k'))) with (N.succ (N.of_nat (S k'))) in Hl by lia.
      rewrite N.pow_succ_r' in Hl. exact Hl.
    + lia.
    + lia.
    + lia.
  - destruct (N.eqb_spec (len / 128) 0) as [E0|E0]; [|lia].
    assert (El : len mod 128 = len) by (rewrite (N.div_mod' len 128) at 2; rewrite E0; lia).
    cbn [app]. rewrite El in *. rewrite land_128_small by exact Hd. cbn [N.eqb].
    rewrite land_127, El, Hsm by exact Hd. rewrite lor_shift by exact Ha. reflexivity.
Qed.

Lemma decode_encode len rest : len < 2 ^ 28 -> decodeLength (encodeLength len ++ rest) = Some (len, rest).
Proof.
  intros H. unfold decodeLength, encodeLength.
  rewrite (dec_enc 4 10 0 len 0 rest); try (cbn; lia).
  f_equal. f_equal. change (2 ^ 0) with 1. lia.
Qed.

Lemma lor_lt a b k : a < 2 ^ k -> b < 2 ^ k -> N.lor a b < 2 ^ k.
Proof.
  intros Ha Hb. rewrite <- (N.mod_small a (2 ^ k) Ha), <- (N.mod_small b (2 ^ k) Hb), <- !N.land_ones.
  rewrite <- N.land_lor_distr_l, N.land_ones. apply N.mod_lt, N.pow_nonzero. lia.
Qed.

(** What decoding accepts: between one and four bytes, a value below 2^28. *)
Lemma decode_loop_bound fuel : forall a m r n rest, a < 2 ^ 28 -> m <= 28 -> m mod 7 = 0 ->
  decodeLength_loop fuel a m r = Some (n, rest) ->
  n < 2 ^ 28 /\ exists p, r = p ++ rest /\ 7 * N.of_nat (length p) + m <= 28.
Proof.
  induction fuel as [|fuel IH]; intros a m r n rest Ha Hm H7 E.
  - injection E as <- <-. split; [exact Ha|]. exists []. split; [reflexivity|]. cbn. lia.
  - cbn [decodeLength_loop] in E. destruct (N.ltb_spec m 27) as [Hlt|Hge].
    + destruct r as [|d r]; [discriminate|]. cbv zeta in E.
      assert (Hv : N.lor a (u32 (N.shiftl (N.land d 127) m)) < 2 ^ 28).
      { apply lor_lt; [exact Ha|]. unfold u32. eapply N.le_lt_trans; [apply N.mod_le; discriminate|].
        rewrite N.shiftl_mul_pow2, land_127.
        assert (d mod 128 < 128) by (apply N.mod_lt; lia).
        assert (2 ^ m <= 2 ^ 21) by (apply N.pow_le_mono_r; lia).
        change (2 ^ 28) with (128 * 2 ^ 21). nia. }
      destruct (N.land d 128 =? 0).
      * injection E as <- <-. split; [exact Hv|]. exists [d]. split; [reflexivity|]. cbn [length]. lia.
      * apply IH in E; [|exact Hv|lia|].
        -- destruct E as [E1 (p & -> & Hp)]. split; [exact E1|]. exists (d :: p). split; [reflexivity|]. cbn [length]. lia.
        -- replace (m + 7) with (m + 1 * 7) by lia. rewrite N.mod_add by lia. exact H7.
    + injection E as <- <-. split; [exact Ha|]. exists []. split; [reflexivity|]. cbn. lia.
Qed.

Lemma decode_bound r n rest : decodeLength r = Some (n, rest) ->
  n < 2 ^ 28 /\ exists p, r = p ++ rest /\ (length p <= 4)%nat.
Proof.
  intros E. apply decode_loop_bound in E; try lia; try reflexivity.
  destruct E as [E1 (p & E2 & E3)]. split; [exact E1|]. exists p. split; [exact E2|]. lia.
Qed.

(** Whole messages *)
Lemma readFull_app a b : readFull (length a) (a ++ b) = Some (a, b).
Proof.
  unfold readFull. rewrite app_length. destruct (Nat.ltb_spec (length a + length b) (length a)); [lia|].
  rewrite firstn_app_len, skipn_app_len by reflexivity. reflexivity.
Qed.

Lemma read_encode C ty flow body rest : hcodec_ok C -> sendable ty flow body ->
  msg_read C (msg_encode C ty flow body ++ rest) = RdMsg ty flow body rest.
Proof.
  intros HC (Hty & Hfl & Hb & Hemp & Hf0).
  unfold msg_encode, fh_pack, msg_read, fh_fromBinary. cbn [fh_type fh_flow fh_len].
  unfold u32. rewrite (N.mod_small (N.of_nat (length body))) by lia.
  destruct (HC (mkFH ty flow (N.of_nat (length body)))) as [Hrt Hlen]; try (cbn; lia).
  set (m := hc_marshal C _) in *. rewrite <- !app_assoc.
  rewrite decode_encode by exact Hlen. rewrite Nat2N.id, readFull_app, Hrt. cbn [fh_type fh_flow fh_len].
  destruct (N.eqb_spec ty 0); [lia|].
  destruct (N.eqb_spec ty PINGREQ) as [Ep|Ep].
  { cbn. rewrite Hemp by (left; exact Ep). reflexivity. }
  destruct (N.eqb_spec ty DISCONNECT) as [Ed|Ed].
  { cbn. rewrite Hemp by (right; exact Ed). reflexivity. }
  cbn [orb]. destruct (N.leb_spec (2 ^ 31) (N.of_nat (length body))); [lia|].
  rewrite Nat2N.id, readFull_app.
  destruct (N.eqb_spec flow 0) as [E0|E0]; [|reflexivity].
  unfold UNSUBSCRIBE, PINGREQ, DISCONNECT in *. destruct (N.ltb_spec 5 ty); [lia|reflexivity].
Qed.

(** A reader that keeps reading, as [readLoop] does. *)
Lemma read_all_encode C ms rest : hcodec_ok C ->
  Forall (fun m => match m with (ty, fl, b) => sendable ty fl b end) ms ->
  read_all C (length ms) (encode_all C ms ++ rest) = (ms, rest).
Proof.
  intros HC H. induction H as [|[[ty fl] b] ms Hm Hms IH]; [reflexivity|].
  cbn [encode_all flat_map length read_all]. rewrite <- app_assoc, (read_encode C _ _ _ _ HC Hm).
  fold (encode_all C ms). rewrite IH. reflexivity.
Qed.

(** A header codec that meets the condition: four little endian fields. *)
Definition toy_hcodec : hcodec :=
  mkHC (fun h => le 1 (fh_type h) ++ le 1 (fh_flow h) ++ le 4 (fh_len h))
       (fun b => mkFH (unle (firstn 1 b)) (unle (firstn 1 (skipn 1 b))) (unle (skipn 2 b))).
Lemma toy_hcodec_ok : hcodec_ok toy_hcodec.
Proof.
  intros [t f n] Ht Hf Hn. cbn [fh_type fh_flow fh_len] in *. split; [|vm_compute; reflexivity].
  unfold toy_hcodec. cbn [hc_unmarshal hc_marshal fh_type fh_flow fh_len].
  f_equal; [change (unle (le 1 t) = t)|change (unle (le 1 f) = f)|change (unle (le 4 n) = n)];
    rewrite unle_le; apply N.mod_small; cbn; lia.
Qed.

Lemma long_lost len rest : 2 ^ 28 <= len -> forall rest', decodeLength (encodeLength len ++ rest) <> Some (len, rest').
Proof. intros H rest' E. apply decode_bound in E. lia. Qed.
