(** Grouping of block numbers into ranges. *)
From Verif Require Import M_Bytes P_Bytes M_BlockRange S_BlockRange.
From Coq Require Import Lia ZifyBool ZifyNat ZifyN Permutation Sorted.
Open Scope Z_scope.

Lemma i32_small z : - 2 ^ 31 <= z < 2 ^ 31 -> i32 z = z.
Proof. intros H. unfold i32. apply to_signed_unsigned; [lia|exact H]. Qed.

Lemma zseq_length a n : length (zseq a n) = n.
Proof. revert a; induction n; intros; cbn; auto. Qed.

Lemma zseq_app a n m : zseq a (n + m) = zseq a n ++ zseq (a + Z.of_nat n) m.
Proof.
  revert a; induction n as [|n IH]; intros a; cbn [Nat.add zseq app].
  - f_equal. lia.
  - rewrite IH. do 3 f_equal. lia.
Qed.

Lemma run_more_le a l : (run_more a l <= length l)%nat.
Proof.
  revert a; induction l as [|x l IH]; intros a; cbn [run_more length]; [lia|].
  destruct (_ =? _); [|lia]. specialize (IH x). lia.
Qed.

(** The run found is a, a+1, ..., a+m. *)
Lemma run_more_seq a l : Forall int32_ok (a :: l) -> StronglySorted Z.lt (a :: l) ->
  a :: firstn (run_more a l) l = zseq a (S (run_more a l)).
Proof.
  revert a; induction l as [|x l IH]; intros a Hr Hs; [reflexivity|].
  inversion Hr as [|? ? Ha Hr']; subst. inversion Hs as [|? ? Hs' Hlt]; subst.
  cbn [run_more].
  destruct (Z.eqb_spec x (i32 (a + 1))) as [E|E]; [|reflexivity].
  assert (Hx : int32_ok x) by (inversion Hr'; assumption).
  assert (Hax : a < x) by (inversion Hlt; assumption).
  unfold int32_ok in Hx, Ha. rewrite i32_small in E by lia. subst x.
  cbn [firstn]. rewrite IH; [|assumption|assumption]. reflexivity.
Qed.

Lemma nth_zseq a n i d : (i < n)%nat -> nth i (zseq a n) d = a + Z.of_nat i.
Proof.
  revert a i; induction n as [|n IH]; intros a i H; [lia|]. cbn [zseq].
  destruct i as [|i]; cbn [nth]; [lia|]. rewrite IH by lia. lia.
Qed.

Lemma nth_firstn_Z (l : list Z) n i : (i < n)%nat -> nth i (firstn n l) 0 = nth i l 0.
Proof.
  revert n i; induction l as [|x l IH]; intros n i H.
  - rewrite firstn_nil. reflexivity.
  - destruct n; [lia|]. destruct i; cbn [firstn nth]; [reflexivity|]. apply IH. lia.
Qed.

Lemma sorted_app_lt (l1 l2 : list Z) x y : StronglySorted Z.lt (l1 ++ l2) -> In x l1 -> In y l2 -> x < y.
Proof.
  induction l1 as [|a l1 IH]; intros H Hx Hy; [contradiction|].
  cbn [app] in H. inversion H as [|? ? Hs Hf]; subst. destruct Hx as [->|Hx]; [|now apply IH].
  rewrite Forall_forall in Hf. apply Hf. apply in_or_app. now right.
Qed.

Lemma sorted_app_r (l1 l2 : list Z) : StronglySorted Z.lt (l1 ++ l2) -> StronglySorted Z.lt l2.
Proof. induction l1 as [|a l1 IH]; intros H; [exact H|]. cbn [app] in H. inversion H; auto. Qed.

Lemma range_loop_ok : forall fuel l acc, (length l <= fuel)%nat -> l <> [] ->
  Forall int32_ok l -> StronglySorted Z.lt l ->
  exists parts, range_loop fuel l acc = Some (acc ++ parts) /\
    Permutation (concat (map expand parts)) l /\ Forall good_part parts.
Proof.
  induction fuel as [|fuel IH]; intros l acc Hf Hn Hr Hs; [destruct l; cbn in *; [congruence|lia]|].
  destruct l as [|a r]; [congruence|]. cbn [range_loop].
  set (m := run_more a r).
  pose proof (run_more_le a r) as Hm. fold m in Hm.
  pose proof (run_more_seq a r Hr Hs) as Hrun. fold m in Hrun.
  assert (Hlast : nth m (a :: r) 0 = a + Z.of_nat m).
  { rewrite <- (nth_zseq a (S m) m 0) by lia. rewrite <- Hrun.
    change (a :: firstn m r) with (firstn (S m) (a :: r)). now rewrite nth_firstn_Z by lia. }
  rewrite Hlast.
  set (new := if Nat.eqb m 1 then [[a + Z.of_nat m]; [a]]
              else if Nat.leb 2 m then [[a; a + Z.of_nat m]] else [[a]]).
  replace (if Nat.eqb m 1 then acc ++ [[a + Z.of_nat m]] ++ [[a]]
           else if Nat.leb 2 m then acc ++ [[a; a + Z.of_nat m]] else acc ++ [[a]]) with (acc ++ new).
  2:{ unfold new. destruct (Nat.eqb m 1); [reflexivity|]. destruct (Nat.leb 2 m); reflexivity. }
  assert (Hnew : Permutation (concat (map expand new)) (zseq a (S m)) /\ Forall good_part new).
  { unfold new. destruct (Nat.eqb_spec m 1) as [E|E].
    - rewrite E. cbn [map concat expand app zseq]. replace (a + Z.of_nat 1) with (a + 1) by lia.
      split; [apply perm_swap|]. repeat constructor.
    - destruct (Nat.leb_spec 2 m) as [L|L].
      + cbn [map concat expand app]. replace (Z.to_nat (a + Z.of_nat m - a + 1)) with (S m) by lia.
        rewrite app_nil_r. split; [reflexivity|]. constructor; [cbn [good_part]; lia|constructor].
      + replace m with O by lia. cbn [map concat expand app zseq]. split; [reflexivity|repeat constructor]. }
  destruct Hnew as [Hp Hg].
  assert (Hsplit : a :: r = zseq a (S m) ++ skipn m r).
  { rewrite <- Hrun. cbn [app]. now rewrite firstn_skipn. }
  destruct (skipn m r) as [|x r'] eqn:Er.
  - exists new. split; [reflexivity|]. split; [|exact Hg]. rewrite Hsplit, app_nil_r. exact Hp.
  - assert (Hx : a + Z.of_nat m < x).
    { rewrite Hsplit in Hs. apply (sorted_app_lt (zseq a (S m)) (x :: r')); [exact Hs| |now left].
      rewrite <- (nth_zseq a (S m) m 0) by lia. apply nth_In. rewrite zseq_length. lia. }
    replace (x =? a + Z.of_nat m) with false by lia. replace (x <? a + Z.of_nat m) with false by lia.
    assert (Hlen : length (x :: r') = (length r - m)%nat) by (rewrite <- Er; apply skipn_length).
    rewrite Hsplit in Hs, Hr.
    destruct (IH (x :: r') (acc ++ new)) as (parts & E & P & G).
    + cbn [length] in *. lia.
    + discriminate.
    + apply Forall_app in Hr. apply Hr.
    + now apply sorted_app_r in Hs.
    + exists (new ++ parts). rewrite E, app_assoc. split; [reflexivity|]. split.
      * rewrite map_app, concat_app, Hsplit. now apply Permutation_app.
      * apply Forall_app; now split.
Qed.

Lemma blockRange_ok idx : Forall int32_ok idx -> StronglySorted Z.lt idx ->
  exists parts, blockRange idx = Some parts /\
    Permutation (concat (map expand parts)) idx /\ Forall good_part parts.
Proof.
  intros Hr Hs. destruct idx as [|a r].
  - exists []. repeat split; constructor.
  - destruct (range_loop_ok (length (a :: r)) (a :: r) []) as (parts & E & P & G); auto; [discriminate|].
    exists parts. auto.
Qed.
