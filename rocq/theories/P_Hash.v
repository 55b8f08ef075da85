(** Proofs about hash/hash.go. *)
From Verif Require Import M_Bytes P_Bytes M_Hash.
From Coq Require Import Lia Permutation ZifyBool ZifyNat ZifyN.
Open Scope N_scope.

Lemma hash_loop8_spec k h b : (8 * k <= length b)%nat ->
  let '(h', rest) := hash_loop8 k h b in
  fold_left mix rest h' = fold_left mix b h /\ rest = skipn (8 * k) b.
Proof.
  revert h b; induction k as [|k IH]; intros h b Hl; cbn [hash_loop8].
  - split; reflexivity.
  - do 8 (destruct b as [|? b]; [cbn [length] in Hl; lia|]). cbn [length] in Hl.
    cbv zeta.
    match goal with |- context [hash_loop8 k ?h0 b] => specialize (IH h0 b) end.
    destruct (hash_loop8 k _ b) as [h' rest] eqn:E.
    destruct IH as [IH1 IH2]; [lia|]. split.
    + rewrite IH1. reflexivity.
    + rewrite IH2. replace (8 * S k)%nat with (8 + 8 * k)%nat by lia. reflexivity.
Qed.

Lemma hash_new_fold b : hash_new b = fold_left mix b offset32.
Proof.
  unfold hash_new. pose proof (hash_loop8_spec (length b / 8) offset32 b) as H.
  destruct (hash_loop8 (length b / 8) offset32 b) as [h rest].
  apply H. apply Nat.mul_div_le. lia.
Qed.

Lemma mix_bound h c : mix h c < 2 ^ 32.
Proof. unfold mix, u32. apply N.mod_lt. lia. Qed.

Lemma hash_new_bound b : hash_new b < 2 ^ 32.
Proof.
  rewrite hash_new_fold. assert (H : offset32 < 2 ^ 32) by reflexivity.
  revert H. generalize offset32. induction b as [|c b IH]; intros h Hh; cbn [fold_left]; [exact Hh|].
  apply IH, mix_bound.
Qed.

Lemma update_middle {A} (l1 l2 : list A) x y : update (l1 ++ x :: l2) (length l1) y = l1 ++ y :: l2.
Proof.
  unfold update. rewrite firstn_app_len by reflexivity. now rewrite skipn_app_len by reflexivity.
Qed.

Lemma swap_perm {A} (l : list A) i j : (j < i)%nat -> Permutation (swap l i j) l.
Proof.
  intros Hji. unfold swap.
  destruct (nth_error l i) as [a|] eqn:Ea; [|reflexivity].
  destruct (nth_error l j) as [b|] eqn:Eb; [|reflexivity].
  apply nth_error_split in Ea as (l1 & l2 & -> & Hl1).
  rewrite nth_error_app1 in Eb by lia.
  apply nth_error_split in Eb as (l3 & l4 & -> & Hl3).
  rewrite <- Hl1. rewrite update_middle.
  rewrite <- Hl3. rewrite <- !app_assoc. cbn [app]. rewrite update_middle.
  apply Permutation_app_head. 
  transitivity (a :: b :: l4 ++ l2).
  - constructor. symmetry. apply Permutation_middle.
  - transitivity (b :: a :: l4 ++ l2); [apply perm_swap|]. constructor. apply Permutation_middle.
Qed.

Lemma shuffle_loop_perm i v p salt l : Permutation (shuffle_loop i v p salt l) l.
Proof.
  revert v p l; induction i as [|i IH]; intros v p l; cbn [shuffle_loop]; [reflexivity|].
  rewrite IH. apply swap_perm.
  set (x := nth v salt 0 + N.of_nat v + (p + nth v salt 0)).
  pose proof (N.mod_lt x (N.of_nat (S i)) ltac:(lia)). lia.
Qed.

Lemma shuffle_perm text c : Permutation (shuffle text c) text.
Proof. unfold shuffle. destruct (c =? 0); [reflexivity|apply shuffle_loop_perm]. Qed.

Lemma hash_salt_spec text salt :
  exists r, Permutation r text /\ hash_salt text salt = fold_left mix r offset32.
Proof. exists (shuffle text salt). split; [apply shuffle_perm|apply hash_new_fold]. Qed.

Lemma hash_salt_bound text salt : hash_salt text salt < 2 ^ 32.
Proof. apply hash_new_bound. Qed.

Lemma hash_salt_zero text : hash_salt text 0 = hash_new text.
Proof. reflexivity. Qed.

(** The indices swapped are always inside the slice, so no panic is possible. *)
Lemma shuffle_index_in_range i x : (0 < i)%nat -> (N.to_nat (x mod N.of_nat i) < i)%nat.
Proof. intros H. pose proof (N.mod_lt x (N.of_nat i) ltac:(lia)). lia. Qed.
