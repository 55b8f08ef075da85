From Verif Require Import M_Pool S_Pool P_Pool P_PoolLive.
From Coq Require Import List Arith Lia Bool.
Import ListNotations.

(** The commit loop is busy with a write to a slow disk; the ticks fill the queue. *)
Definition round : list pev := [ETick; ELoop; ELoop; EDisp; EDisp].
Fixpoint rounds (k : nat) : list pev := match k with O => [] | S j => rounds j ++ round end.
Definition hang (cap : nat) : list pev := rounds cap ++ [EBatch; EWrite 0; EDisp; EDisp].

Lemma run_app : forall cap s a b, pool_run cap s (a ++ b) = pool_run cap (pool_run cap s a) b.
Proof. intros. unfold pool_run. apply fold_left_app. Qed.

Lemma rounds_state : forall cap k, k <= cap ->
  pool_run cap pool_start (rounds k) =
  PS (S k) k [] false DRecv (seq 0 k) false MIdle [] [] false LIdle XNot [] false.
Proof.
  intros cap k. induction k as [|k IH]; intros L; [reflexivity|].
  cbn [rounds]. rewrite run_app, IH by lia.
  unfold round, pool_run. cbn -[seq Nat.ltb]. unfold disp_step. cbn -[seq Nat.ltb].
  rewrite ?seq_length.
  destruct (Nat.ltb_spec k cap) as [_|B]; [|lia].
  rewrite seq_S. reflexivity.
Qed.

Lemma hang_state : forall cap,
  pool_run cap pool_start (hang cap) =
  PS (S (S cap)) cap [] false DSleep (seq 0 cap) false MIdle [] [S cap] false LIdle XNot [BWait (S cap)] false.
Proof.
  intros cap. unfold hang. rewrite run_app, rounds_state by lia.
  unfold pool_run. cbn -[seq Nat.ltb]. unfold disp_step. cbn -[seq Nat.ltb]. rewrite seq_length.
  rewrite (proj2 (Nat.ltb_ge cap cap) (le_n cap)). reflexivity.
Qed.

Lemma hangs : forall cap, exists l, ~ In EClose l /\
  let s := pool_run cap pool_start l in
  p_panic s = false /\ forall l', waits (pool_run cap s l') 0.
Proof.
  intros cap. exists (hang cap). split.
  - unfold hang. intros I. apply in_app_or in I.
    destruct I as [I|[I|[I|[I|[I|[]]]]]]; try discriminate.
    induction cap as [|k IH]; cbn [rounds] in I; [destruct I|].
    apply in_app_or in I. destruct I as [I|I]; [auto|].
    destruct I as [I|[I|[I|[I|[I|[]]]]]]; discriminate.
  - cbv zeta. split; [rewrite hang_state; reflexivity|]. intros l'. exists (S cap).
    apply dropped_waits.
    + apply inv_run, inv_start.
    + rewrite hang_state. left. reflexivity.
    + rewrite hang_state. reflexivity.
Qed.

Definition closing : list pev :=
  [EBatch; EClose; ELoop; ELoop; EDisp; ELoop; EDisp; EDisp; ECom; ECom; ECom; ECom; EClose].

Lemma write_after_close : forall cap, 1 <= cap ->
  let s := pool_run cap pool_start closing in
  p_close s = XRet /\ p_panic s = false /\ p_panic (pool_step cap s (EWrite 0)) = true.
Proof. intros [|cap] L; [lia|]. vm_compute. repeat split; reflexivity. Qed.

(** Close closes the queue while a Write waits to send. *)
Lemma write_and_close : forall cap,
  let s := pool_run cap pool_start [EBatch; EClose; ELoop; ELoop; EWrite 0] in
  waits s 0 /\ p_close s = XWait /\ p_panic s = false /\ p_panic (pool_step cap s ELoop) = true.
Proof. intros cap. vm_compute. repeat split; try reflexivity. exists 1. reflexivity. Qed.

(** A fair schedule *)
Definition ev_fair (n : nat) : pev :=
  match n mod 4 with
  | 0 => ELoop
  | 1 => EDisp
  | 2 => ECom
  | _ => EWrite (n / 4 - Nat.sqrt (n / 4) * Nat.sqrt (n / 4))
  end.

Lemma mod4 : forall k r, r < 4 -> (4 * k + r) mod 4 = r /\ (4 * k + r) / 4 = k.
Proof.
  intros k r L. split.
  - symmetry. apply (Nat.mod_unique _ _ k); lia.
  - symmetry. apply (Nat.div_unique _ _ _ r); lia.
Qed.

Lemma ev_fair_again : fair ev_fair.
Proof.
  repeat split.
  - intros n. exists (4 * n + 0). split; [lia|]. unfold ev_fair. destruct (mod4 n 0 ltac:(lia)) as [-> _]. reflexivity.
  - intros n. exists (4 * n + 1). split; [lia|]. unfold ev_fair. destruct (mod4 n 1 ltac:(lia)) as [-> _]. reflexivity.
  - intros n. exists (4 * n + 2). split; [lia|]. unfold ev_fair. destruct (mod4 n 2 ltac:(lia)) as [-> _]. reflexivity.
  - intros i n. set (m := n + i). exists (4 * (m * m + i) + 3). split; [unfold m; nia|].
    unfold ev_fair. destruct (mod4 (m * m + i) 3 ltac:(lia)) as [-> ->].
    assert (Q : Nat.sqrt (m * m + i) = m) by (apply Nat.sqrt_unique; unfold m; nia).
    rewrite Q. f_equal. lia.
Qed.

Lemma fair_later : forall ev ev' k, fair ev -> (forall n, ev' (k + n) = ev n) -> fair ev'.
Proof.
  intros ev ev' k (A & B & C & D) E.
  assert (X : forall e, again ev e -> again ev' e).
  { intros e H n. destruct (H n) as (m & L & Q). exists (k + m). split; [lia|]. rewrite E. exact Q. }
  repeat split; auto.
Qed.

(** A batch, then the fair schedule *)
Definition ev_write (n : nat) : pev :=
  match n with 0 => EBatch | 1 => EWrite 0 | S (S k) => ev_fair k end.
(** The fair schedule and Close *)
Definition ev_close (n : nat) : pev := if Nat.even n then EClose else ev_fair (n / 2).

Lemma ev_fair_kinds : forall n, ev_fair n <> EClose /\ ev_fair n <> EBatch /\ ev_fair n <> ETick.
Proof. intros n. unfold ev_fair. destruct (n mod 4) as [|[|[|k]]]; repeat split; discriminate. Qed.

Lemma small_next : forall cap s e, e <> ETick -> e <> EBatch -> e <> EClose ->
  p_next s <= 2 -> p_loop s = LIdle -> p_stop s = false ->
  let s' := pool_step cap s e in p_next s' <= 2 /\ p_loop s' = LIdle /\ p_stop s' = false.
Proof.
  intros cap s e N1 N2 N3 H L T. st s. subst lo sp. unfold pool_step. red_. destruct pn; [auto|].
  destruct e; try congruence; unfold loop_step, disp_step, com_step, com_stop, write_step; red_; cases_; auto.
Qed.

Lemma lq_short : forall s, inv s -> length (p_lq s) <= p_next s.
Proof.
  intros s I. rewrite <- (seq_length (p_next s) 0). apply NoDup_incl_length.
  - assert (A : forall x, cn x (p_lq s) <= 1).
    { intros x. pose proof (i_one s I x) as O. unfold cnt, pipe in O. lia. }
    revert A. generalize (p_lq s). intros l. induction l as [|y l IH]; intros A; constructor.
    + intros J. apply cn_in in J. specialize (A y). cbn in A. rewrite one_same in A. lia.
    + apply IH. intros x. specialize (A x). cbn in A. lia.
  - intros x J. apply in_seq. apply cn_in in J.
    destruct (le_lt_dec (p_next s) x) as [L|L]; [|lia].
    pose proof (i_new s I x L) as O. unfold cnt, pipe in O. lia.
Qed.

Lemma write_example : fair ev_write /\ never ev_write EClose /\ never_full 27 ev_write /\
  waits (pool_at 27 ev_write 2) 0.
Proof.
  split; [|split; [|split]].
  - apply (fair_later ev_fair ev_write 2 ev_fair_again). reflexivity.
  - intros [|[|n]]; cbn; try discriminate. apply ev_fair_kinds.
  - assert (A : forall n, let s := pool_at 27 ev_write (2 + n) in
               p_next s <= 2 /\ p_loop s = LIdle /\ p_stop s = false).
    { induction n as [|n IH]; [vm_compute; auto|].
      cbv zeta in *. destruct IH as (B & C & D). cbn [Nat.add] in *. rewrite step_at. cbn [ev_write].
      destruct (ev_fair_kinds n) as (X & Y & Z). apply small_next; assumption. }
    intros [|[|n]]; [cbn; lia|cbn; lia|].
    pose proof (lq_short _ (inv_at 27 ev_write (2 + n))) as L. destruct (A n) as (B & _).
    cbn [Nat.add] in *. lia.
  - exists 1. reflexivity.
Qed.

Lemma close_example : fair ev_close /\ again ev_close EClose /\ never ev_close EBatch.
Proof.
  assert (X : forall e, again ev_fair e -> again ev_close e).
  { intros e H n. destruct (H n) as (m & L & Q). exists (2 * m + 1). split; [lia|].
    unfold ev_close. assert (E : Nat.even (2 * m + 1) = false).
    { rewrite Nat.even_add, Nat.even_mul. reflexivity. }
    rewrite E. assert (D : (2 * m + 1) / 2 = m) by (symmetry; apply (Nat.div_unique _ _ _ 1); lia).
    rewrite D. exact Q. }
  destruct ev_fair_again as (A & B & C & D).
  split; [repeat split; auto|]. split.
  - intros n. exists (2 * n). split; [lia|]. unfold ev_close. rewrite Nat.even_mul. reflexivity.
  - intros n. unfold ev_close. destruct (Nat.even n); [discriminate|]. apply ev_fair_kinds.
Qed.
