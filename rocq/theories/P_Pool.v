From Verif Require Import M_Pool S_Pool.
From Coq Require Import List Arith Lia Bool.
Import ListNotations.

Definition one (a x : nat) : nat := if Nat.eqb a x then 1 else 0.
Fixpoint cn (x : nat) (l : list nat) : nat :=
  match l with [] => 0 | y :: r => one y x + cn x r end.

Lemma cn_app : forall x a b, cn x (a ++ b) = cn x a + cn x b.
Proof. intros x a b. induction a as [|y a IH]; cbn; [reflexivity|]. lia. Qed.
Lemma one_same : forall x, one x x = 1.
Proof. intros. unfold one. rewrite Nat.eqb_refl. reflexivity. Qed.
Lemma one_pos : forall a x, 1 <= one a x -> a = x.
Proof. intros a x. unfold one. destruct (Nat.eqb_spec a x); [auto|lia]. Qed.
Lemma cn_in : forall x l, In x l <-> 1 <= cn x l.
Proof.
  intros x l. induction l as [|y l IH]; cbn; [split; [tauto|lia]|].
  unfold one. destruct (Nat.eqb_spec y x) as [->|N].
  - split; [lia|auto].
  - rewrite IH. split; [intros [E|H]; [congruence|lia]|right; lia].
Qed.
Lemma memb_in : forall x l, memb x l = true <-> In x l.
Proof.
  intros x l. unfold memb. rewrite existsb_exists. split.
  - intros (y & I & E). apply Nat.eqb_eq in E. subst. exact I.
  - intros I. exists x. split; [exact I|apply Nat.eqb_refl].
Qed.

Definition cd (x : nat) (d : pdisp) : nat := match d with DHand y => one y x | _ => 0 end.
Definition cc (x : nat) (c : pcom) : nat := match c with MHand _ y => one y x | _ => 0 end.
Definition cw (x : nat) (w : pwrite) : nat := match w with BStart y => one y x | _ => 0 end.
Fixpoint cb (x : nat) (l : list pwrite) : nat :=
  match l with [] => 0 | w :: r => cw x w + cb x r end.
Definition ct (x : nat) (s : pst) : nat :=
  match p_loop s with LIdle => one (p_tiny s) x | _ => 0 end.

Lemma cb_app : forall x a b, cb x (a ++ b) = cb x a + cb x b.
Proof. intros x a b. induction a as [|y a IH]; cbn; [reflexivity|]. lia. Qed.
Lemma cb_upd : forall x l i w v, nth_error l i = Some w -> cb x (upd_bw i v l) + cw x w = cb x l + cw x v.
Proof.
  intros x l. induction l as [|y l IH]; intros [|i] w v H; cbn in *; try discriminate.
  - injection H as ->. lia.
  - pose proof (IH i w v H). lia.
Qed.

Lemma nth_upd : forall l i j w v, nth_error l i = Some w ->
  nth_error (upd_bw i v l) j = if Nat.eqb i j then Some v else nth_error l j.
Proof.
  intros l. induction l as [|y l IH]; intros [|i] [|j] w v H; cbn in *; try discriminate; try reflexivity.
  apply (IH i j w v H).
Qed.

(** Sent and not yet waited for *)
Definition pipe (x : nat) (s : pst) : nat :=
  cn x (p_wq s) + cd x (p_disp s) + cn x (p_lq s) + cc x (p_com s) + cn x (p_done s) + cn x (p_drop s).
Definition cnt (x : nat) (s : pst) : nat := pipe x s + cb x (p_bw s) + ct x s.

Record inv (s : pst) : Prop := {
  i_one : forall x, cnt x s <= 1;
  i_new : forall x, p_next s <= x -> cnt x s = 0;
  i_dend : p_disp s = DEnd -> p_wq s = [] /\ p_wclosed s = true;
  i_lcl : p_lclosed s = true -> p_disp s = DEnd;
  i_lcl2 : p_disp s = DEnd -> p_lclosed s = true;
  i_mend : p_com s = MEnd -> p_lq s = [] /\ p_lclosed s = true;
  i_wcl : p_wclosed s = true -> p_loop s = LEnd;
  i_wcl2 : p_loop s = LEnd -> p_wclosed s = true;
  i_run : p_stop s = false -> (p_loop s = LIdle \/ p_loop s = LNew \/ exists x, p_loop s = LSend false x);
  i_close : p_close s = XNot -> p_stop s = false;
  i_close2 : p_close s <> XNot -> p_stop s = true;
  i_wait : forall i x, nth_error (p_bw s) i = Some (BWait x) -> 1 <= pipe x s;
  i_send : forall f x, p_loop s = LSend f x -> 1 <= pipe x s;
  i_pan : p_stop s = false -> p_panic s = false
}.

Lemma inv_start : inv pool_start.
Proof.
  constructor; cbn; try discriminate; try congruence; auto.
  - intros x. unfold cnt, pipe, ct, one. cbn. destruct x; lia.
  - intros x L. unfold cnt, pipe, ct, one. cbn. destruct x; lia.
  - intros [|i] x H; discriminate.
Qed.

Ltac cnts := unfold cnt, pipe, ct in *; cbn [p_next p_tiny p_wq p_wclosed p_disp p_lq p_lclosed p_com
  p_done p_drop p_stop p_loop p_close p_bw p_panic set_disp set_com set_loop set_bw set_close panic
  cn cd cc cb cw] in *; rewrite ?cn_app, ?cb_app in *; cbn [cn cb cw] in *.

Ltac fl := rewrite ?cn_app, ?cb_app in *; cbn [cn cb cw] in *; rewrite ?one_same in *; lia.
Ltac start s := destruct s as [nx ti wq wc d lq lc c dn dr st lo cl bw pn].

Lemma inv_disp : forall cap s, inv s -> inv (disp_step cap s).
Proof.
  intros cap s [O N D1 L1 L2 M1 W1 W2 R1 C1 C2 WA SE PA]. start s. unfold disp_step. cnts.
  destruct d as [|x| |].
  - destruct wq as [|x wq].
    + destruct wc; [|constructor; cnts; auto; fail].
      constructor; cnts; auto; try congruence.
      all: try (intros E; destruct (M1 E); auto).
    + constructor; cnts; auto; try congruence.
      * intros y. specialize (O y). fl.
      * intros y Y. specialize (N y Y). fl.
      * intros E. specialize (L1 E). congruence.
      * intros i y H. specialize (WA i y H). fl.
      * intros f y H. specialize (SE f y H). fl.
  - destruct (Nat.ltb (length lq) cap).
    + constructor; cnts; auto; try congruence.
      * intros y. specialize (O y). fl.
      * intros y Y. specialize (N y Y). fl.
      * intros E. specialize (L1 E). congruence.
      * intros E. destruct (M1 E) as [_ E']. specialize (L1 E'). congruence.
      * intros i y H. specialize (WA i y H). fl.
      * intros f y H. specialize (SE f y H). fl.
    + constructor; cnts; auto; try congruence.
      * intros y. specialize (O y). fl.
      * intros y Y. specialize (N y Y). fl.
      * intros E. specialize (L1 E). congruence.
      * intros i y H. specialize (WA i y H). fl.
      * intros f y H. specialize (SE f y H). fl.
  - constructor; cnts; auto; try congruence. intros E. specialize (L1 E). congruence.
  - constructor; cnts; auto.
Qed.

Lemma inv_com : forall s, inv s -> inv (com_step s).
Proof.
  intros s [O N D1 L1 L2 M1 W1 W2 R1 C1 C2 WA SE PA]. start s. unfold com_step. cnts.
  destruct c as [|b x| |].
  - destruct lq as [|x lq].
    + destruct st; constructor; cnts; auto; congruence.
    + constructor; cnts; auto; try congruence.
      * intros y. specialize (O y). fl.
      * intros y Y. specialize (N y Y). fl.
      * intros i y H. specialize (WA i y H). fl.
      * intros f y H. specialize (SE f y H). fl.
  - destruct b; constructor; cnts; auto; try congruence;
      try (intros y; specialize (O y); fl); try (intros y Y; specialize (N y Y); fl);
      try (intros i y H; specialize (WA i y H); fl); try (intros f y H; specialize (SE f y H); fl).
  - destruct lq as [|x lq].
    + destruct lc; constructor; cnts; auto; congruence.
    + constructor; cnts; auto; try congruence.
      * intros y. specialize (O y). fl.
      * intros y Y. specialize (N y Y). fl.
      * intros i y H. specialize (WA i y H). fl.
      * intros f y H. specialize (SE f y H). fl.
  - constructor; cnts; auto.
Qed.

Lemma inv_comstop : forall s, inv s -> inv (com_stop s).
Proof.
  intros s [O N D1 L1 L2 M1 W1 W2 R1 C1 C2 WA SE PA]. start s. unfold com_stop. cnts.
  destruct c; try (constructor; cnts; auto; fail).
  destruct st; constructor; cnts; auto; congruence.
Qed.

Lemma inv_tick : forall s, inv s -> inv (tick_step s).
Proof.
  intros s [O N D1 L1 L2 M1 W1 W2 R1 C1 C2 WA SE PA]. start s. unfold tick_step. cnts.
  destruct lo; try (constructor; cnts; auto; fail).
  destruct st; [constructor; cnts; auto|].
  constructor; cnts; auto; try congruence.
  - intros y. specialize (O y). fl.
  - intros y Y. specialize (N y Y). fl.
  - intros E. destruct (D1 E) as [_ E']. specialize (W1 E'). discriminate.
  - intros E. specialize (W1 E). discriminate.
  - intros _. right. right. exists ti. reflexivity.
  - intros i y H. specialize (WA i y H). fl.
  - intros f y H. injection H as <- <-. fl.
Qed.

Lemma inv_loop : forall s, inv s -> inv (loop_step s).
Proof.
  intros s [O N D1 L1 L2 M1 W1 W2 R1 C1 C2 WA SE PA]. start s. unfold loop_step. cnts.
  destruct lo as [|f x| | |].
  - destruct st; [|constructor; cnts; auto].
    constructor; cnts; auto; try congruence.
    + intros y. specialize (O y). fl.
    + intros y Y. specialize (N y Y). fl.
    + intros E. destruct (D1 E) as [_ E']. specialize (W1 E'). discriminate.
    + intros E. specialize (W1 E). discriminate.
    + intros i y H. specialize (WA i y H). fl.
    + intros f y H. injection H as <- <-. fl.
  - destruct (memb x (tl wq)); [constructor; cnts; auto|].
    constructor; cnts; auto; try congruence.
    + intros y. specialize (O y). destruct f; fl.
    + intros y Y. specialize (N y Y). destruct f; fl.
    + intros E. specialize (W1 E). discriminate.
    + destruct f; discriminate.
    + intros E. destruct (R1 E) as [H|[H|(z & H)]]; try discriminate. injection H as -> ->. auto.
    + destruct f; discriminate.
  - constructor; cnts; auto; try congruence.
    + intros y. specialize (O y). pose proof (N y). unfold one.
      destruct (Nat.eqb_spec nx y) as [->|]; [|fl]. specialize (N y (le_n y)). fl.
    + intros y Y. pose proof (N y). unfold one. destruct (Nat.eqb_spec nx y); fl.
    + intros E. specialize (W1 E). discriminate.
  - destruct (Nat.ltb 1 (length wq)).
    + constructor; cnts; auto.
      intros E. destruct (R1 E) as [H|[H|(z & H)]]; discriminate.
    + constructor; cnts; auto; try congruence.
      * intros E. destruct (D1 E). auto.
      * intros E. destruct (R1 E) as [H|[H|(z & H)]]; discriminate.
  - constructor; cnts; auto.
Qed.

Lemma inv_batch : forall s, inv s -> inv (batch_step s).
Proof.
  intros s [O N D1 L1 L2 M1 W1 W2 R1 C1 C2 WA SE PA]. start s. unfold batch_step. cnts.
  constructor; cnts; auto.
  - intros y. specialize (O y).
    assert (A : one nx y <= 1 /\ (nx <> y -> one nx y = 0))
      by (unfold one; destruct (Nat.eqb_spec nx y); lia).
    destruct (Nat.eq_dec nx y) as [E|E]; [specialize (N y ltac:(lia)); fl|].
    destruct A as [_ A]. specialize (A E). fl.
  - intros y Y. specialize (N y ltac:(lia)).
    assert (A : one nx y = 0) by (unfold one; destruct (Nat.eqb_spec nx y); lia). fl.
  - intros i y H. destruct (lt_dec i (length bw)) as [L|L].
    + rewrite nth_error_app1 in H by exact L. exact (WA i y H).
    + rewrite nth_error_app2 in H by lia. destruct (i - length bw) as [|[|k]]; cbn in H; discriminate.
Qed.

Lemma inv_write : forall s i, inv s -> inv (write_step s i).
Proof.
  intros s i [O N D1 L1 L2 M1 W1 W2 R1 C1 C2 WA SE PA]. start s. unfold write_step. cnts.
  destruct (nth_error bw i) as [[x|x|x]|] eqn:E; try (constructor; cnts; auto; fail).
  - destruct wc eqn:EW.
    + constructor; cnts; auto. intros H. specialize (W1 eq_refl).
      destruct (R1 H) as [H'|[H'|(z & H')]]; congruence.
    + pose proof (fun y => cb_upd y bw i _ (BWait x) E) as U. cbn [cw] in U.
      constructor; cnts; auto; try congruence.
      * intros y. specialize (O y). specialize (U y). fl.
      * intros y Y. specialize (N y Y). specialize (U y). fl.
      * intros H. destruct (D1 H). congruence.
      * intros j y H. rewrite (nth_upd _ _ _ _ _ E) in H.
        destruct (Nat.eqb i j).
        -- injection H as ->. fl.
        -- specialize (WA j y H). fl.
      * intros f y H. specialize (SE f y H). fl.
  - destruct (memb x dn) eqn:EM; [|constructor; cnts; auto].
    pose proof (fun y => cb_upd y bw i _ (BRet x) E) as U. cbn [cw] in U.
    constructor; cnts; auto.
    + intros y. specialize (O y). specialize (U y). fl.
    + intros y Y. specialize (N y Y). specialize (U y). fl.
    + intros j y H. rewrite (nth_upd _ _ _ _ _ E) in H.
      destruct (Nat.eqb i j); [discriminate|]. exact (WA j y H).
Qed.

Lemma inv_closing : forall s, inv s -> inv (close_step s).
Proof.
  intros s [O N D1 L1 L2 M1 W1 W2 R1 C1 C2 WA SE PA]. start s. unfold close_step. cnts.
  destruct cl; [| |constructor; cnts; auto].
  - constructor; cnts; auto; congruence.
  - destruct d; try (constructor; cnts; auto; fail).
    destruct c; try (constructor; cnts; auto; fail).
    constructor; cnts; auto; congruence.
Qed.

Lemma inv_step : forall cap s e, inv s -> inv (pool_step cap s e).
Proof.
  intros cap s e I. unfold pool_step. destruct (p_panic s); [exact I|].
  destruct e; auto using inv_tick, inv_loop, inv_disp, inv_com, inv_comstop, inv_batch, inv_write, inv_closing.
Qed.

Lemma inv_at : forall cap ev n, inv (pool_at cap ev n).
Proof. intros cap ev n. induction n; [apply inv_start|]. cbn. apply inv_step. assumption. Qed.

Lemma inv_run : forall cap l s, inv s -> inv (pool_run cap s l).
Proof. intros cap l. induction l as [|e l IH]; intros s I; cbn; [exact I|]. apply IH, inv_step, I. Qed.
