(** UTF-8: [utf8] of M_Proto is the definition of the standard. *)
From Verif Require Import M_Bytes M_Keys M_Conn M_Wire M_Proto S_Conn S_Packet P_Proto.
From Coq Require Import List Bool NArith ZArith Lia ZifyBool ZifyN ZifyNat.
Import ListNotations.
Open Scope N_scope.
Ltac Zify.zify_post_hook ::= Z.div_mod_to_equations.
Lemma cont_iff lo hi b : cont lo hi b = true <-> lo <= b /\ b <= hi.
Proof. unfold cont. lia. Qed.
Lemma utf8_one c r : scalar c -> utf8 (utf8_of c ++ r) = utf8 r.
Proof.
  intros S. unfold utf8_of. destruct (c <? 0x80) eqn:E1.
  - cbn [app utf8]. rewrite E1. reflexivity.
  - destruct (c <? 0x800) eqn:E2; [|destruct (c <? 0x10000) eqn:E3].
    + cbn [app utf8]. assert (A : 0xC0 + c / 64 <? 128 = false) by lia. rewrite A.
      assert (B : cont 0xC2 0xDF (0xC0 + c / 64) = true) by (apply cont_iff; lia). rewrite B.
      assert (C : cont 0x80 0xBF (0x80 + c mod 64) = true) by (apply cont_iff; lia). rewrite C. reflexivity.
    + cbn [app utf8]. assert (A : 0xE0 + c / 4096 <? 128 = false) by lia. rewrite A.
      assert (B : cont 0xC2 0xDF (0xE0 + c / 4096) = false) by (unfold cont; lia). rewrite B.
      assert (B2 : cont 0xE0 0xEF (0xE0 + c / 4096) = true) by (apply cont_iff; lia). rewrite B2.
      assert (C : cont 0x80 0xBF (0x80 + c mod 64) = true) by (apply cont_iff; lia). rewrite C.
      unfold scalar in S.
      assert (D : cont (if 0xE0 + c / 4096 =? 0xE0 then 0xA0 else 0x80) (if 0xE0 + c / 4096 =? 0xED then 0x9F else 0xBF) (0x80 + c / 64 mod 64) = true).
      { apply cont_iff. destruct (0xE0 + c / 4096 =? 0xE0) eqn:X; destruct (0xE0 + c / 4096 =? 0xED) eqn:Y; lia. }
      rewrite D. reflexivity.
    + cbn [app utf8]. unfold scalar in S. assert (A : 0xF0 + c / 262144 <? 128 = false) by lia. rewrite A.
      assert (B : cont 0xC2 0xDF (0xF0 + c / 262144) = false) by (unfold cont; lia). rewrite B.
      assert (B2 : cont 0xE0 0xEF (0xF0 + c / 262144) = false) by (unfold cont; lia). rewrite B2.
      assert (B3 : cont 0xF0 0xF4 (0xF0 + c / 262144) = true) by (apply cont_iff; lia). rewrite B3.
      assert (C : cont 0x80 0xBF (0x80 + c mod 64) = true) by (apply cont_iff; lia). rewrite C.
      assert (C2 : cont 0x80 0xBF (0x80 + c / 64 mod 64) = true) by (apply cont_iff; lia). rewrite C2.
      assert (D : cont (if 0xF0 + c / 262144 =? 0xF0 then 0x90 else 0x80) (if 0xF0 + c / 262144 =? 0xF4 then 0x8F else 0xBF) (0x80 + c / 4096 mod 64) = true).
      { apply cont_iff. destruct (0xF0 + c / 262144 =? 0xF0) eqn:X; destruct (0xF0 + c / 262144 =? 0xF4) eqn:Y; lia. }
      rewrite D. reflexivity.
Qed.
Lemma utf8_some b : utf8 b = true -> b <> [] -> exists c r, scalar c /\ b = utf8_of c ++ r /\ utf8 r = true.
Proof.
  destruct b as [|x b]; [congruence|]. intros H _. cbn [utf8] in H.
  destruct (x <? 128) eqn:E1.
  { exists x, b. unfold scalar, utf8_of. rewrite E1. split; [lia|]. split; [reflexivity|exact H]. }
  destruct (cont 0xC2 0xDF x) eqn:E2.
  { destruct b as [|y r]; [discriminate|]. apply andb_true_iff in H. destruct H as [Y H].
    apply cont_iff in E2, Y. exists ((x - 0xC0) * 64 + (y - 0x80)), r. unfold scalar. split; [lia|]. split; [|exact H].
    unfold utf8_of. assert (A : (x - 0xC0) * 64 + (y - 0x80) <? 0x80 = false) by lia. rewrite A.
    assert (B : (x - 0xC0) * 64 + (y - 0x80) <? 0x800 = true) by lia. rewrite B.
    cbn [app]. f_equal; [lia|]. f_equal. lia. }
  destruct (cont 0xE0 0xEF x) eqn:E3.
  { destruct b as [|y [|z r]]; try discriminate. apply andb_true_iff in H. destruct H as [H U].
    apply andb_true_iff in H. destruct H as [Y Z0]. apply cont_iff in E3, Y, Z0.
    assert (Y' : 0x80 <= y /\ y <= 0xBF /\ (x = 0xE0 -> 0xA0 <= y) /\ (x = 0xED -> y <= 0x9F))
      by (destruct (x =? 0xE0) eqn:X1; destruct (x =? 0xED) eqn:X2; lia). clear Y.
    exists ((x - 0xE0) * 4096 + (y - 0x80) * 64 + (z - 0x80)), r. unfold scalar.
    remember ((x - 0xE0) * 4096 + (y - 0x80) * 64 + (z - 0x80)) as c eqn:Ec.
    split; [lia|]. split; [|exact U].
    unfold utf8_of. assert (A : c <? 0x80 = false) by lia. rewrite A.
    assert (B : c <? 0x800 = false) by lia. rewrite B. assert (B2 : c <? 0x10000 = true) by lia. rewrite B2.
    cbn [app]. f_equal; [lia|]. f_equal; [lia|]. f_equal. lia. }
  destruct (cont 0xF0 0xF4 x) eqn:E4; [|discriminate].
  destruct b as [|y [|z [|w r]]]; try discriminate. apply andb_true_iff in H. destruct H as [H U].
  apply andb_true_iff in H. destruct H as [H W]. apply andb_true_iff in H. destruct H as [Y Z0]. apply cont_iff in E4, Y, Z0, W.
  assert (Y' : 0x80 <= y /\ y <= 0xBF /\ (x = 0xF0 -> 0x90 <= y) /\ (x = 0xF4 -> y <= 0x8F))
    by (destruct (x =? 0xF0) eqn:X1; destruct (x =? 0xF4) eqn:X2; lia). clear Y.
  exists ((x - 0xF0) * 262144 + (y - 0x80) * 4096 + (z - 0x80) * 64 + (w - 0x80)), r. unfold scalar.
  remember ((x - 0xF0) * 262144 + (y - 0x80) * 4096 + (z - 0x80) * 64 + (w - 0x80)) as c eqn:Ec.
  split; [lia|]. split; [|exact U].
  unfold utf8_of. assert (A : c <? 0x80 = false) by lia. rewrite A.
  assert (B : c <? 0x800 = false) by lia. rewrite B. assert (B2 : c <? 0x10000 = false) by lia. rewrite B2.
  cbn [app]. f_equal; [lia|]. f_equal; [lia|]. f_equal; [lia|]. f_equal. lia.
Qed.
Lemma utf8_text b : utf8 b = true <-> text b.
Proof.
  split.
  - remember (length b) as n eqn:En. revert b En.
    induction n as [n IH] using lt_wf_ind. intros b En U.
    destruct b as [|x b]; [exists []; split; [constructor|reflexivity]|].
    destruct (utf8_some (x :: b) U) as [c [r [Sc [E Ur]]]]; [discriminate|].
    assert (L : (length r < n)%nat).
    { subst n. rewrite E, app_length. unfold utf8_of. destruct (c <? 0x80); [cbn; lia|].
      destruct (c <? 0x800); [cbn; lia|]. destruct (c <? 0x10000); cbn; lia. }
    destruct (IH _ L r eq_refl Ur) as [cs [F Er]]. exists (c :: cs). split; [constructor; assumption|].
    cbn [flat_map]. rewrite <- Er. exact E.
  - intros [cs [F ->]]. induction F as [|c cs Sc F IH]; [reflexivity|]. cbn [flat_map]. rewrite (utf8_one c _ Sc). exact IH.
Qed.

Lemma encodes_text p : to_binary p <> None <-> Forall text (strings p).
Proof.
  rewrite encodes. split; apply Forall_impl; intros s; apply utf8_text.
Qed.
