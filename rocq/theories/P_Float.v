(** The float division used by block.go:47-49 against the integer quotient. *)
From Coq Require Import Reals ZArith Lia Lra Psatz.
From Flocq Require Import Core.
Open Scope R_scope.

(** IEEE binary64, round to nearest even (Go's float64 arithmetic; no overflow
    or subnormals occur for the values used here). *)
Definition f64 (x : R) : R := round radix2 (FLT_exp (-1074) 53) ZnearestE x.

(** block.go:47-49 [int32(float64(seq-1) / float64(255))], before the final
    conversion to int32, which is the identity below 2^31. *)
Definition blockIndex_float (n : Z) : Z := Ztrunc (f64 (f64 (IZR n) / f64 (IZR 255))).

Lemma f64_int n : (Z.abs n < 2 ^ 53)%Z -> f64 (IZR n) = IZR n.
Proof.
  intros H. unfold f64. apply round_generic; [apply valid_rnd_N|].
  apply generic_format_FLT. exists (Float radix2 n 0); [unfold F2R; simpl; ring| |simpl; lia].
  simpl. change (2 ^ 53)%Z with 9007199254740992%Z in *. lia.
Qed.

(** Values of the form m/256 with a small numerator are exact. *)
Lemma f64_256 m : (0 <= m < 2 ^ 53)%Z -> f64 (IZR m / 256) = IZR m / 256.
Proof.
  intros H. unfold f64. apply round_generic; [apply valid_rnd_N|].
  apply generic_format_FLT. exists (Float radix2 m (-8)).
  - unfold F2R. simpl. unfold Rdiv. f_equal.
  - simpl. change (2 ^ 53)%Z with 9007199254740992%Z in *. lia.
  - simpl. lia.
Qed.

Lemma blockIndex_float_exact n : (0 <= n < 255 * 2 ^ 31)%Z -> blockIndex_float n = (n / 255)%Z.
Proof.
  intros H. unfold blockIndex_float.
  rewrite !f64_int by (change (2 ^ 53)%Z with 9007199254740992%Z; change (2 ^ 31)%Z with 2147483648%Z in H; lia).
  set (k := (n / 255)%Z).
  assert (Hk : (255 * k <= n <= 255 * k + 254)%Z).
  { unfold k. pose proof (Z.div_mod n 255 ltac:(lia)). pose proof (Z.mod_pos_bound n 255 ltac:(lia)). lia. }
  change (2 ^ 31)%Z with 2147483648%Z in H.
  assert (Hk0 : (0 <= k < 2147483648)%Z) by lia.
  assert (L : IZR k <= f64 (IZR n / IZR 255)).
  { rewrite <- (f64_int k) by (change (2 ^ 53)%Z with 9007199254740992%Z; lia).
    apply round_le; [apply FLT_exp_valid; reflexivity|apply valid_rnd_N|].
    apply Rmult_le_reg_r with (r := 255); [lra|]. unfold Rdiv. rewrite Rmult_assoc, Rinv_l by lra.
    rewrite Rmult_1_r. rewrite <- mult_IZR. apply IZR_le. lia. }
  assert (U : f64 (IZR n / IZR 255) <= IZR (256 * k + 255) / 256).
  { rewrite <- (f64_256 (256 * k + 255)) by (change (2 ^ 53)%Z with 9007199254740992%Z; lia).
    apply round_le; [apply FLT_exp_valid; reflexivity|apply valid_rnd_N|].
    apply Rmult_le_reg_r with (r := 255 * 256); [lra|].
    replace (IZR n / IZR 255 * (255 * 256)) with (IZR (n * 256)) by (rewrite mult_IZR; field).
    replace (IZR (256 * k + 255) / 256 * (255 * 256)) with (IZR ((256 * k + 255) * 255))
      by (rewrite mult_IZR; field).
    apply IZR_le. lia. }
  assert (U2 : f64 (IZR n / IZR 255) < IZR (k + 1)).
  { eapply Rle_lt_trans; [exact U|].
    apply Rmult_lt_reg_r with (r := 256); [lra|].
    replace (IZR (256 * k + 255) / 256 * 256) with (IZR (256 * k + 255)) by field.
    rewrite <- mult_IZR. apply IZR_lt. lia. }
  rewrite Ztrunc_floor; [|apply Rle_trans with (IZR k); [apply IZR_le; lia|exact L]].
  apply Zfloor_imp. split; [exact L|exact U2].
Qed.

From Verif Require Import M_Bytes M_IndexBlock P_Index.

Lemma blockIndex_float_eq (seq : N) : (1 <= seq <= 255 * 2 ^ 31)%N ->
  blockIndex_float (Z.of_N seq - 1) = blockIndex seq.
Proof.
  intros H. change (255 * 2 ^ 31)%N with 547608330240%N in H.
  rewrite blockIndex_float_exact by (change (255 * 2 ^ 31)%Z with 547608330240%Z; lia).
  rewrite blockIndex_spec by (change (2 ^ 64)%N with 18446744073709551616%N; lia).
  rewrite N2Z.inj_div. f_equal. lia.
Qed.
