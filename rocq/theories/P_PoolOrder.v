(** The log pool keeps the order of the logs. *)
From Verif Require Import M_Pool S_Pool P_Pool.
From Coq Require Import List Arith Lia Bool Permutation.
Import ListNotations.

Lemma sl_refl : forall l, sublist l l.
Proof. induction l; constructor; auto. Qed.
Lemma sl_app : forall a b c d, sublist a b -> sublist c d -> sublist (a ++ c) (b ++ d).
Proof. intros a b c d H K. induction H; cbn; try constructor; auto. Qed.
Lemma sl_trans : forall b c, sublist b c -> forall a, sublist a b -> sublist a c.
Proof.
  intros b c H. induction H as [|x b c H IH|x b c H IH]; intros a K; [exact K| |constructor; auto].
  inversion K; subst; constructor; auto.
Qed.
Lemma sl_mid : forall (a b : list nat) x, sublist (a ++ b) (a ++ x :: b).
Proof. intros. apply sl_app; [apply sl_refl|constructor; apply sl_refl]. Qed.

Definition line (s : pst) : list nat := rev (p_done s) ++ inside s.
Record hist (a : list nat) (s : pst) : Prop := {
  h_sub : sublist (line s) a;
  h_all : Permutation a (line s ++ p_drop s) }.

Lemma same_line : forall a s s', line s' = line s -> p_drop s' = p_drop s -> hist a s -> hist (a ++ []) s'.
Proof. intros a s s' L D [H K]. rewrite app_nil_r. split; rewrite L, ?D; assumption. Qed.
Lemma more_line : forall a s s' x, line s' = line s ++ [x] -> p_drop s' = p_drop s -> hist a s -> hist (a ++ [x]) s'.
Proof.
  intros a s s' x L D [H K]. split; rewrite L, ?D.
  - apply sl_app; [exact H|apply sl_refl].
  - rewrite K. rewrite <- !app_assoc. apply Permutation_app_head. cbn. rewrite Permutation_app_comm. reflexivity.
Qed.
Lemma less_line : forall a s s' u v x, line s = u ++ x :: v -> line s' = u ++ v -> p_drop s' = x :: p_drop s -> hist a s -> hist (a ++ []) s'.
Proof.
  intros a s s' u v x L L' D [H K]. rewrite app_nil_r. rewrite L in *. split; rewrite L', ?D.
  - eapply sl_trans; [exact H|apply sl_mid].
  - rewrite K. rewrite <- !app_assoc. apply Permutation_app_head. cbn [app]. apply Permutation_middle.
Qed.
Lemma skip_all : forall (l : list nat), skipn (length l) l = [].
Proof. induction l; cbn; auto. Qed.
Lemma skip_more : forall (l : list nat) x, skipn (length l) (l ++ [x]) = [x].
Proof. induction l; cbn; auto. Qed.
Lemma skip_less : forall (l : list nat), skipn (S (length l)) l = [].
Proof. intros. apply skipn_all2. lia. Qed.

Lemma hist_step : forall cap a s e, hist a s -> hist (a ++ skipn (length (p_wq s)) (p_wq (pool_step cap s e))) (pool_step cap s e).
Proof.
  intros cap a s e H. unfold pool_step. destruct (p_panic s) eqn:P.
  { rewrite skip_all. eapply same_line; [| |exact H]; reflexivity. }
  start s. cbn in P. subst pn.
  destruct e as [| | | | | |i|]; unfold tick_step, loop_step, disp_step, com_step, com_stop, batch_step, write_step, close_step.
  - cbn [p_loop p_stop]. destruct lo; try (cbn [p_wq]; rewrite skip_all; eapply same_line; [| |exact H]; reflexivity).
    destruct st; cbn [p_wq set_loop p_tiny]; [rewrite skip_all; eapply same_line; [| |exact H]; reflexivity|].
    rewrite skip_more. eapply more_line; [| |exact H]; [|reflexivity]. unfold line, inside. cbn. now rewrite <- !app_assoc.
  - cbn [p_loop p_stop]. destruct lo as [|f x| | |]; try (cbn [p_wq set_loop p_tiny]; rewrite skip_all; eapply same_line; [| |exact H]; reflexivity).
    + destruct st; cbn [p_wq set_loop p_tiny]; [|rewrite skip_all; eapply same_line; [| |exact H]; reflexivity].
      rewrite skip_more. eapply more_line; [| |exact H]; [|reflexivity]. unfold line, inside. cbn. now rewrite <- !app_assoc.
    + destruct (memb x _); cbn [p_wq set_loop]; rewrite skip_all; eapply same_line; try exact H; reflexivity.
    + destruct (Nat.ltb 1 _); cbn [p_wq set_loop panic]; rewrite skip_all; eapply same_line; try exact H; reflexivity.
  - cbn [p_disp p_wq p_wclosed p_lq]. destruct d as [|x| |]; try (cbn [p_wq set_disp]; rewrite skip_all; eapply same_line; [| |exact H]; reflexivity).
    + destruct wq as [|x r]; [destruct wc; cbn [p_wq set_disp]; rewrite skip_all; eapply same_line; try exact H; reflexivity|].
      cbn [p_wq set_disp length]. rewrite skip_less. eapply same_line; [| |exact H]; reflexivity.
    + destruct (Nat.ltb (length lq) cap); cbn [p_wq set_disp]; rewrite skip_all.
      * eapply same_line; [| |exact H]; [|reflexivity]. unfold line, inside. cbn. now rewrite <- !app_assoc.
      * eapply (less_line _ _ _ (rev dn ++ (match c with MHand _ y => [y] | _ => [] end) ++ lq) wq x); [| | |exact H]; try reflexivity;
          unfold line, inside; cbn; now rewrite <- !app_assoc.
  - cbn [p_com p_lq p_stop p_lclosed]. destruct c as [|b x| |].
    + destruct lq as [|x r]; [destruct st|]; cbn [p_wq set_com]; rewrite skip_all; eapply same_line; try exact H; reflexivity.
    + cbn [p_wq set_com]. rewrite skip_all. eapply same_line; try exact H; [|reflexivity]. unfold line, inside. cbn. destruct b; cbn; now rewrite <- !app_assoc.
    + destruct lq as [|x r]; [destruct lc|]; cbn [p_wq set_com]; rewrite skip_all; eapply same_line; try exact H; reflexivity.
    + cbn [p_wq]. rewrite skip_all. eapply same_line; try exact H; reflexivity.
  - cbn [p_com p_stop]. destruct c; try (cbn [p_wq]; rewrite skip_all; eapply same_line; [| |exact H]; reflexivity).
    destruct st; cbn [p_wq set_com]; rewrite skip_all; eapply same_line; try exact H; reflexivity.
  - cbn [p_wq set_bw]. rewrite skip_all. eapply same_line; try exact H; reflexivity.
  - cbn [p_bw p_wclosed p_done]. destruct (nth_error bw i) as [[x|x|x]|]; try (cbn [p_wq]; rewrite skip_all; eapply same_line; [| |exact H]; reflexivity).
    + destruct wc; cbn [p_wq set_bw panic]; [rewrite skip_all; eapply same_line; try exact H; reflexivity|].
      rewrite skip_more. eapply more_line; [| |exact H]; [|reflexivity]. unfold line, inside. cbn. now rewrite <- !app_assoc.
    + destruct (memb x dn); cbn [p_wq set_bw]; rewrite skip_all; eapply same_line; try exact H; reflexivity.
  - cbn [p_close p_disp p_com]. destruct cl; try (cbn [p_wq set_close]; rewrite skip_all; eapply same_line; [| |exact H]; reflexivity).
    destruct d, c; cbn [p_wq set_close]; rewrite skip_all; eapply same_line; try exact H; reflexivity.
Qed.
Lemma hist_run : forall cap l a s, hist a s -> hist (a ++ sent cap s l) (pool_run cap s l).
Proof.
  intros cap. induction l as [|e l IH]; intros a s H; cbn [sent pool_run fold_left]; [now rewrite app_nil_r|].
  rewrite app_assoc. apply IH. now apply hist_step.
Qed.
Lemma hist_start : hist [] pool_start.
Proof. split; [apply sl_nil|apply perm_nil]. Qed.

Lemma cn_rev : forall x l, cn x (rev l) = cn x l.
Proof. intros x. induction l as [|y l IH]; cbn; [reflexivity|]. rewrite cn_app. cbn. lia. Qed.
Lemma cn_nodup : forall l, (forall x, cn x l <= 1) -> NoDup l.
Proof.
  induction l as [|y l IH]; intros H; constructor.
  - intros I. apply cn_in in I. specialize (H y). cbn in H. rewrite one_same in H. lia.
  - apply IH. intros x. specialize (H x). cbn in H. lia.
Qed.
Lemma line_cnt : forall x s, cn x (line s ++ p_drop s) = pipe x s.
Proof.
  intros x s. unfold line, inside, pipe. rewrite !cn_app, cn_rev.
  destruct (p_com s); destruct (p_disp s); cbn; lia.
Qed.
Lemma in_order : forall cap l, let s := pool_run cap pool_start l in
  sublist (rev (p_done s) ++ inside s) (sent cap pool_start l) /\
  Permutation (sent cap pool_start l) (p_done s ++ inside s ++ p_drop s) /\ NoDup (sent cap pool_start l).
Proof.
  intros cap l s. destruct (hist_run cap l [] pool_start hist_start) as [A B]. fold s in A, B. cbn [app] in A, B.
  split; [exact A|]. split.
  - rewrite B. unfold line. rewrite <- app_assoc. apply Permutation_app_tail. symmetry. apply Permutation_rev.
  - eapply Permutation_NoDup; [symmetry; exact B|]. apply cn_nodup. intros x. rewrite line_cnt.
    pose proof (i_one _ (inv_run cap l pool_start inv_start) x) as I. fold s in I. unfold cnt in I. lia.
Qed.

(** What Write waited for is done. *)
Definition rets (s : pst) : Prop := forall i x, nth_error (p_bw s) i = Some (BRet x) -> In x (p_done s).
Lemma rets_step : forall cap s e, rets s -> rets (pool_step cap s e).
Proof.
  intros cap s e H. unfold pool_step. destruct (p_panic s); [exact H|]. start s.
  destruct e as [| | | | | |i|]; unfold tick_step, loop_step, disp_step, com_step, com_stop, batch_step, write_step, close_step;
    unfold rets in *; cbn [p_loop p_stop p_disp p_wq p_wclosed p_lq p_com p_lclosed p_bw p_done p_close p_next p_tiny] in *.
  - destruct lo; try exact H. destruct st; exact H.
  - destruct lo as [|f x| | |]; try exact H; [destruct st; exact H|destruct (memb x _); exact H|destruct (Nat.ltb 1 _); exact H].
  - destruct d as [|x| |]; try exact H; [destruct wq; [destruct wc|]; exact H|destruct (Nat.ltb _ _); exact H].
  - destruct c as [|b x| |]; try exact H; [destruct lq; [destruct st|]; exact H| |destruct lq; [destruct lc|]; exact H].
    intros i z Hz. right. exact (H _ _ Hz).
  - destruct c; try exact H. destruct st; exact H.
  - intros i x Hx. cbn [set_bw p_bw p_done] in *. destruct (Nat.lt_ge_cases i (length bw)) as [D|D].
    + rewrite nth_error_app1 in Hx by exact D. exact (H _ _ Hx).
    + rewrite nth_error_app2 in Hx by exact D. destruct (i - length bw) as [|[|?]]; discriminate.
  - destruct (nth_error bw i) as [[x|x|x]|] eqn:F; try exact H.
    + destruct wc; [exact H|]. intros j y. cbn [set_bw p_bw p_done]. rewrite (nth_upd _ _ j _ _ F). destruct (Nat.eqb i j); [discriminate|apply H].
    + destruct (memb x dn) eqn:M; [|exact H]. intros j y. cbn [set_bw p_bw p_done]. rewrite (nth_upd _ _ j _ _ F).
      destruct (Nat.eqb i j); [|apply H]. intros [= <-]. now apply memb_in.
  - destruct cl; try exact H. destruct d, c; exact H.
Qed.
Lemma returned_done : forall cap l i x, nth_error (p_bw (pool_run cap pool_start l)) i = Some (BRet x) ->
  In x (p_done (pool_run cap pool_start l)).
Proof.
  intros cap l. assert (H : forall l s, rets s -> rets (pool_run cap s l)).
  { clear. induction l as [|e l IH]; intros s H; [exact H|]. cbn. apply IH. now apply rets_step. }
  apply H. intros [|i] x Hx; discriminate.
Qed.

(** When Close has returned, the goroutines have ended. *)
Definition ends (s : pst) : Prop := p_close s = XRet -> p_disp s = DEnd /\ p_com s = MEnd.
Lemma ends_step : forall cap s e, ends s -> ends (pool_step cap s e).
Proof.
  intros cap s e H. unfold pool_step. destruct (p_panic s); [exact H|]. start s.
  destruct e as [| | | | | |i|]; unfold tick_step, loop_step, disp_step, com_step, com_stop, batch_step, write_step, close_step;
    unfold ends in *; cbn [p_loop p_stop p_disp p_wq p_wclosed p_lq p_com p_lclosed p_bw p_done p_close p_next p_tiny] in *.
  - destruct lo; try exact H. destruct st; exact H.
  - destruct lo as [|f x| | |]; try exact H; [destruct st; exact H|destruct (memb x _); exact H|destruct (Nat.ltb 1 _); exact H].
  - destruct d as [|x| |]; try exact H.
    + destruct wq; [destruct wc|]; cbn; intros E; destruct (H E); discriminate.
    + destruct (Nat.ltb _ _); cbn; intros E; destruct (H E); discriminate.
    + cbn. intros E; destruct (H E); discriminate.
  - destruct c as [|b x| |]; try exact H.
    + destruct lq; [destruct st|]; cbn; intros E; destruct (H E); discriminate.
    + cbn. intros E; destruct (H E); discriminate.
    + destruct lq; [destruct lc|]; cbn; intros E; destruct (H E); discriminate.
  - destruct c; try exact H. destruct st; cbn; intros E; destruct (H E); discriminate.
  - exact H.
  - destruct (nth_error bw i) as [[x|x|x]|]; try exact H; [destruct wc; exact H|destruct (memb x dn); exact H].
  - destruct cl; [cbn; discriminate| |exact H]. destruct d, c; cbn; auto; discriminate.
Qed.
Lemma closed_empty : forall cap l, p_close (pool_run cap pool_start l) = XRet -> inside (pool_run cap pool_start l) = [].
Proof.
  intros cap l E. assert (H : forall l s, ends s -> ends (pool_run cap s l)).
  { clear. induction l as [|e l IH]; intros s H; [exact H|]. cbn. apply IH. now apply ends_step. }
  destruct (H l pool_start) as [A B]; [discriminate|exact E|].
  pose proof (inv_run cap l pool_start inv_start) as I.
  unfold inside. rewrite A, B. rewrite (proj1 (i_mend _ I B)), (proj1 (i_dend _ I A)). reflexivity.
Qed.
Lemma drop_none : forall cap l, (forall l1 l2, l = l1 ++ l2 -> length (p_lq (pool_run cap pool_start l1)) < cap) ->
  p_drop (pool_run cap pool_start l) = [].
Proof.
  intros cap l. induction l as [|e l IH] using rev_ind; intros H; [reflexivity|].
  assert (D : p_drop (pool_run cap pool_start l) = []).
  { apply IH. intros l1 l2 ->. apply (H l1 (l2 ++ [e])). now rewrite app_assoc. }
  specialize (H l [e] eq_refl). unfold pool_run in *. rewrite fold_left_app. cbn [fold_left].
  clear IH. generalize dependent (fold_left (pool_step cap) l pool_start). intros s H D. unfold pool_step. destruct (p_panic s); [exact D|].
  destruct e; unfold tick_step, loop_step, disp_step, com_step, com_stop, batch_step, write_step, close_step.
  - destruct (p_loop s); try exact D. destruct (p_stop s); exact D.
  - destruct (p_loop s) as [|f x| | |]; try exact D; [destruct (p_stop s); exact D|destruct (memb x _); exact D|destruct (Nat.ltb 1 _); exact D].
  - destruct (p_disp s) as [|x| |]; try exact D; [destruct (p_wq s); [destruct (p_wclosed s)|]; exact D|].
    rewrite (proj2 (Nat.ltb_lt _ _) H). exact D.
  - destruct (p_com s) as [|b x| |]; try exact D; [destruct (p_lq s); [destruct (p_stop s)|]; exact D|destruct (p_lq s); [destruct (p_lclosed s)|]; exact D].
  - destruct (p_com s); try exact D. destruct (p_stop s); exact D.
  - exact D.
  - destruct (nth_error (p_bw s) i) as [[x|x|x]|]; try exact D; [destruct (p_wclosed s); exact D|destruct (memb x _); exact D].
  - destruct (p_close s); try exact D. destruct (p_disp s), (p_com s); exact D.
Qed.
