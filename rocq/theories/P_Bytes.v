(** Lemmas about [M_Bytes]. *)
From Coq Require Import Lia ZifyBool ZifyNat ZifyN.
From Verif Require Import M_Bytes.
Open Scope N_scope.
Ltac Zify.zify_post_hook ::= Z.div_mod_to_equations.

Lemma le_length k v : length (le k v) = k.
Proof. revert v; induction k as [|k IH]; intros v; cbn [le length]; [reflexivity|now rewrite IH]. Qed.

Lemma le_ok k v : bytes_ok (le k v).
Proof.
  revert v; induction k as [|k IH]; intros v; cbn [le]; constructor; [|apply IH].
  unfold byte_ok; apply N.mod_lt; lia.
Qed.

Lemma pow256_S k : 256 ^ N.of_nat (S k) = 256 * 256 ^ N.of_nat k.
Proof. rewrite Nat2N.inj_succ, N.pow_succ_r'; reflexivity. Qed.

Lemma unle_le k v : unle (le k v) = v mod 256 ^ N.of_nat k.
Proof.
  revert v; induction k as [|k IH]; intros v.
  - cbn. rewrite N.mod_1_r. reflexivity.
  - cbn [le unle]. rewrite IH, pow256_S.
    rewrite (N.mod_mul_r v 256 (256 ^ N.of_nat k)); [reflexivity|lia|apply N.pow_nonzero; lia].
Qed.

Lemma unle_le_small k v : v < 256 ^ N.of_nat k -> unle (le k v) = v.
Proof. intros H; rewrite unle_le; apply N.mod_small; exact H. Qed.

Lemma unle_bound l : bytes_ok l -> unle l < 256 ^ N.of_nat (length l).
Proof.
  induction 1 as [|b l Hb Hl IH]; cbn [unle length].
  - cbn; lia.
  - rewrite pow256_S. unfold byte_ok in Hb. nia.
Qed.

Lemma le_unle l : bytes_ok l -> le (length l) (unle l) = l.
Proof.
  induction 1 as [|b l Hb Hl IH]; cbn [unle length le]; [reflexivity|].
  unfold byte_ok in Hb.
  replace (b + 256 * unle l) with (unle l * 256 + b) by lia.
  rewrite N.div_add_l by lia. rewrite (N.div_small b) by lia. rewrite N.add_0_r, IH.
  f_equal. rewrite N.add_comm. rewrite N.mod_add by lia. apply N.mod_small; lia.
Qed.

Lemma unle_inj l1 l2 : bytes_ok l1 -> bytes_ok l2 -> length l1 = length l2 ->
  unle l1 = unle l2 -> l1 = l2.
Proof.
  intros H1 H2 Hl He. rewrite <- (le_unle l1 H1), <- (le_unle l2 H2), Hl, He. reflexivity.
Qed.

Lemma be_length k v : length (be k v) = k.
Proof. unfold be; rewrite rev_length; apply le_length. Qed.

Lemma bytes_ok_rev l : bytes_ok l -> bytes_ok (rev l).
Proof. unfold bytes_ok; rewrite !Forall_forall; intros H x Hx; apply H; now apply in_rev. Qed.

Lemma be_ok k v : bytes_ok (be k v).
Proof. apply bytes_ok_rev, le_ok. Qed.

Lemma unbe_be k v : unbe (be k v) = v mod 256 ^ N.of_nat k.
Proof. unfold unbe, be; rewrite rev_involutive; apply unle_le. Qed.

Lemma be_unbe l : bytes_ok l -> be (length l) (unbe l) = l.
Proof.
  intros H; unfold be, unbe.
  rewrite <- (rev_length l), le_unle by (now apply bytes_ok_rev). apply rev_involutive.
Qed.

Lemma bytes_ok_app l1 l2 : bytes_ok (l1 ++ l2) <-> bytes_ok l1 /\ bytes_ok l2.
Proof. apply Forall_app. Qed.

Lemma bytes_okb_spec l : bytes_okb l = true <-> bytes_ok l.
Proof.
  unfold bytes_okb, bytes_ok. rewrite forallb_forall, Forall_forall.
  split; intros H x Hx; specialize (H x Hx); unfold byte_ok in *; lia.
Qed.

Lemma bytes_ok_firstn n l : bytes_ok l -> bytes_ok (firstn n l).
Proof.
  unfold bytes_ok; rewrite !Forall_forall. intros H x Hx.
  apply H. rewrite <- (firstn_skipn n l). apply in_or_app; now left.
Qed.

Lemma bytes_ok_skipn n l : bytes_ok l -> bytes_ok (skipn n l).
Proof.
  unfold bytes_ok; rewrite !Forall_forall. intros H x Hx.
  apply H. rewrite <- (firstn_skipn n l). apply in_or_app; now right.
Qed.

Lemma bytes_ok_slice l o n : bytes_ok l -> bytes_ok (slice l o n).
Proof. intros H; apply bytes_ok_firstn, bytes_ok_skipn, H. Qed.

Lemma bytes_ok_repeat0 n : bytes_ok (repeat 0 n).
Proof. induction n; cbn; constructor; [unfold byte_ok; lia|assumption]. Qed.

(** Slices of concatenations. *)
Lemma skipn_app_len {A} (l1 l2 : list A) n : length l1 = n -> skipn n (l1 ++ l2) = l2.
Proof. intros <-. rewrite skipn_app, skipn_all, Nat.sub_diag. reflexivity. Qed.

Lemma firstn_app_len {A} (l1 l2 : list A) n : length l1 = n -> firstn n (l1 ++ l2) = l1.
Proof. intros <-. rewrite firstn_app, firstn_all, Nat.sub_diag. cbn. apply app_nil_r. Qed.

Lemma slice_app_mid (l1 l2 l3 : bytes) o n :
  length l1 = o -> length l2 = n -> slice (l1 ++ l2 ++ l3) o n = l2.
Proof.
  intros H1 H2; unfold slice. rewrite skipn_app_len by exact H1. apply firstn_app_len; exact H2.
Qed.

Lemma slice_app_mid_end (l1 l2 : bytes) o n :
  length l1 = o -> length l2 = n -> slice (l1 ++ l2) o n = l2.
Proof. intros. rewrite <- (app_nil_r l2) at 1. now apply slice_app_mid. Qed.

Lemma slice_head (l1 l2 : bytes) n : length l1 = n -> slice (l1 ++ l2) 0 n = l1.
Proof. intros; unfold slice; cbn [skipn]. now apply firstn_app_len. Qed.

Lemma slice_length l o n : (o + n <= length l)%nat -> length (slice l o n) = n.
Proof. intros H; unfold slice. rewrite firstn_length, skipn_length. lia. Qed.

Lemma skipn_skipn_add {A} (l : list A) a b : skipn a (skipn b l) = skipn (b + a) l.
Proof.
  revert b; induction l as [|x l IH]; intros b.
  - now rewrite !skipn_nil.
  - destruct b as [|b]; cbn [skipn Nat.add]; [reflexivity|apply IH].
Qed.

Lemma slice_skipn l a o n : slice (skipn a l) o n = slice l (a + o) n.
Proof. unfold slice. now rewrite skipn_skipn_add. Qed.

(** Powers as used by the fixed widths. *)
Lemma pow256_1 : 256 ^ N.of_nat 1 = 2 ^ 8. Proof. reflexivity. Qed.
Lemma pow256_2 : 256 ^ N.of_nat 2 = 2 ^ 16. Proof. reflexivity. Qed.
Lemma pow256_4 : 256 ^ N.of_nat 4 = 2 ^ 32. Proof. reflexivity. Qed.
Lemma pow256_8 : 256 ^ N.of_nat 8 = 2 ^ 64. Proof. reflexivity. Qed.

Lemma unle_le2 v : v < 2 ^ 16 -> unle (le 2 v) = v.
Proof. intros; apply unle_le_small; rewrite pow256_2; assumption. Qed.
Lemma unle_le4 v : v < 2 ^ 32 -> unle (le 4 v) = v.
Proof. intros; apply unle_le_small; rewrite pow256_4; assumption. Qed.
Lemma unle_le8 v : v < 2 ^ 64 -> unle (le 8 v) = v.
Proof. intros; apply unle_le_small; rewrite pow256_8; assumption. Qed.

(** Signed conversions. *)
Lemma to_signed_unsigned k z : 0 < k ->
  (- 2 ^ (Z.of_N k - 1) <= z < 2 ^ (Z.of_N k - 1))%Z ->
  to_signed k (to_unsigned k z) = z.
Proof.
  intros Hk Hz. unfold to_signed, to_unsigned.
  assert (Hp : (2 ^ Z.of_N k = 2 * 2 ^ (Z.of_N k - 1))%Z).
  { rewrite <- Z.pow_succ_r by lia. f_equal; lia. }
  assert (Hq : Z.of_N (2 ^ (k - 1)) = (2 ^ (Z.of_N k - 1))%Z).
  { rewrite N2Z.inj_pow. rewrite N2Z.inj_sub by lia. reflexivity. }
  set (P := (2 ^ (Z.of_N k - 1))%Z) in *.
  assert (HP : (0 < P)%Z) by (apply Z.pow_pos_nonneg; lia).
  rewrite Hp.
  assert (Hm : (0 <= z mod (2 * P) < 2 * P)%Z) by (apply Z.mod_pos_bound; lia).
  destruct (Z.to_N (z mod (2 * P)) <? 2 ^ (k - 1)) eqn:E; rewrite Z2N.id by lia.
  - apply N.ltb_lt in E.
    assert (z mod (2 * P) < P)%Z by lia.
    assert (0 <= z)%Z.
    { destruct (Z.lt_ge_cases z 0) as [Hn|]; [|assumption]. exfalso.
      assert (z mod (2 * P) = z + 2 * P)%Z.
      { symmetry; apply Z.mod_unique with (q := (-1)%Z); lia. } lia. }
    apply Z.mod_small; lia.
  - apply N.ltb_ge in E.
    assert (P <= z mod (2 * P))%Z by lia.
    assert (z < 0)%Z.
    { destruct (Z.lt_ge_cases z 0) as [Hn|Hn]; [assumption|]. exfalso.
      rewrite Z.mod_small in H; lia. }
    assert (z mod (2 * P) = z + 2 * P)%Z.
    { symmetry; apply Z.mod_unique with (q := (-1)%Z); lia. } lia.
Qed.

Lemma to_unsigned_bound k z : to_unsigned k z < 2 ^ k.
Proof.
  unfold to_unsigned.
  assert (0 <= z mod 2 ^ Z.of_N k < 2 ^ Z.of_N k)%Z by (apply Z.mod_pos_bound, Z.pow_pos_nonneg; lia).
  assert (Z.of_N (2 ^ k) = (2 ^ Z.of_N k)%Z) by (rewrite N2Z.inj_pow; reflexivity).
  lia.
Qed.

Lemma to_unsigned_signed k v : 0 < k -> v < 2 ^ k -> to_unsigned k (to_signed k v) = v.
Proof.
  intros Hk Hv. unfold to_signed, to_unsigned.
  assert (Hq : Z.of_N (2 ^ k) = (2 ^ Z.of_N k)%Z) by (rewrite N2Z.inj_pow; reflexivity).
  destruct (v <? 2 ^ (k - 1)).
  - rewrite Z.mod_small by lia. apply N2Z.id.
  - replace (Z.of_N v - 2 ^ Z.of_N k)%Z with (Z.of_N v + (-1) * 2 ^ Z.of_N k)%Z by lia.
    rewrite Z.mod_add by lia. rewrite Z.mod_small by lia. apply N2Z.id.
Qed.
