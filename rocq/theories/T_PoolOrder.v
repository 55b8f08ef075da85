(** C111: the log pool writes the logs once and in their order, and loses none but
    those it drops from a full queue. *)
From Verif Require Import M_Pool S_Pool P_PoolOrder.
From Coq Require Import List Arith Permutation.
Import ListNotations.

(** Those written and those still in the pool are, in this order, the logs handed to
    the pool without the dropped ones; none of them is written twice. *)
Theorem C111_order : forall cap l, let s := pool_run cap pool_start l in
  sublist (rev (p_done s) ++ inside s) (sent cap pool_start l) /\
  Permutation (sent cap pool_start l) (p_done s ++ inside s ++ p_drop s) /\ NoDup (sent cap pool_start l).
Proof. exact in_order. Qed.
Print Assumptions C111_order.

(** A log whose Write has returned is written. *)
Theorem C111_returned : forall cap l i x, nth_error (p_bw (pool_run cap pool_start l)) i = Some (BRet x) ->
  In x (p_done (pool_run cap pool_start l)).
Proof. exact returned_done. Qed.
Print Assumptions C111_returned.

(** When Close has returned nothing is left in the pool. *)
Theorem C111_closed : forall cap l, p_close (pool_run cap pool_start l) = XRet ->
  inside (pool_run cap pool_start l) = [].
Proof. exact closed_empty. Qed.
Print Assumptions C111_closed.

(** Logs are dropped from a full queue only. *)
Theorem C111_kept : forall cap l,
  (forall l1 l2, l = l1 ++ l2 -> length (p_lq (pool_run cap pool_start l1)) < cap) ->
  p_drop (pool_run cap pool_start l) = [].
Proof. exact drop_none. Qed.
Print Assumptions C111_kept.

(** Three Writes: with a queue of one log the second log is dropped; with a queue of 27
    all are written, and so is the tiny log when Close is called. *)
Definition three : list pev :=
  [EBatch; EBatch; EBatch; EWrite 0; EWrite 1; EWrite 2; EDisp; EDisp; EDisp; EDisp; ECom; ECom; EWrite 0; EDisp; EDisp; EDisp; ECom; ECom; ECom].
Definition close1 : list pev := [EClose; ELoop; ELoop; ELoop; ELoop] ++
  concat (repeat [EDisp; ECom; ELoop; EComStop; EClose] 20).
Example C111_case : let s := pool_run 1 pool_start three in
  sent 1 pool_start three = [1; 2; 3] /\ p_done s = [3; 1] /\ p_drop s = [2] /\ nth_error (p_bw s) 0 = Some (BRet 1) /\
  inside (pool_run 1 pool_start (firstn 7 three)) = [1; 2; 3].
Proof. vm_compute. repeat split. Qed.
Example C111_case_closed : let s := pool_run 27 pool_start (three ++ close1) in
  p_close s = XRet /\ p_panic s = false /\ rev (p_done s) = sent 27 pool_start (three ++ close1) /\ p_drop s = [] /\ length (p_done s) = 4.
Proof. vm_compute. repeat split. Qed.
Example C111_case_kept : forall l1 l2, three = l1 ++ l2 -> length (p_lq (pool_run 27 pool_start l1)) < 27.
Proof.
  intros l1 l2 E. assert (H : l1 = firstn (length l1) three) by (rewrite E, firstn_app, Nat.sub_diag, firstn_all; cbn; now rewrite app_nil_r).
  assert (L : length l1 <= 19) by (change 19 with (length three); rewrite E, app_length; apply Nat.le_add_r).
  rewrite H. generalize dependent (length l1). intros n _ L. apply Nat.ltb_lt.
  do 20 (destruct n as [|n]; [vm_compute; reflexivity|]). exfalso. apply (Nat.nle_succ_0 n). now repeat apply le_S_n in L.
Qed.
